(** * Demo1024: a 1024-bit RSA key pair, for the cases beside theorems about RSA keys of 1024 bits or more. *)
From Coq Require Import Strings.String.
From Coq Require Import List ZArith Znumtheory Bool Lia.
From Coq.Init Require Import Byte.
From Verif Require Import PyBase Primes ModArith KeyInfo AsymSpec AsymKeys AsymFacts Keys Props_Util Props_Asym.
Import ListNotations.
Local Open Scope Z_scope.

Definition nums1024 : rsa_nums :=
  MkRsaNums (MkRsaPubNums (P508 * Q516) 65537)
    22731755120901815368130653282980449464339727340778075902299672348297463217451767605557901705279309850839054536741017088010581227716846937827778775628959678941304669656750782287115320037861147622602588047238955613246761808900576335417040964954805086234756386306341865853276517584275253088753004153902431404033
    P508 Q516
    10069350305406844934276119731681661944734841975244988425669778852690258649572309287308397267827538929808372471549471260409863508957767675447902094387004818.
Definition rsa1024 : rsapriv := RsaPrivateKey_Generate nums1024 1024.
Lemma rsa1024_pair : rsa_pair 1024 (rn_n (rn_pub nums1024)) (rn_e (rn_pub nums1024)) (rn_d nums1024) (rn_p nums1024) (rn_q nums1024) (rn_u nums1024).
Proof.
  constructor; try (vm_compute; reflexivity); try exact P508_prime; try exact Q516_prime.
  - vm_compute. discriminate.
  - split; [vm_compute; discriminate | vm_compute; reflexivity].
  - split; [vm_compute; discriminate | vm_compute; reflexivity].
Qed.
Lemma rsa1024_ok : rsa_key_ok 1024 rsa1024.
Proof. apply C19_generated_keys; [right; right; left; reflexivity | exact rsa1024_pair]. Qed.
