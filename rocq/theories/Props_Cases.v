(** * Props_Cases: further concrete cases that meet the hypotheses of theorems in Props_Disk, Props_Tool and Props_Format. *)
From Coq Require Import Strings.String.
From Coq Require Import List ZArith NArith Bool Lia ZifyBool ZifyNat ZifyN.
From Coq.Init Require Import Byte.
From Verif Require Import PyBase PyFacts JsonFacts KeysFacts KeyczarFacts DiskFacts Base64 Aes Util UtilFacts KeyInfo SymKeys SymFacts Keys KeyData Keyczar KeyRing Disk Keyczart.
From Verif Require Import Props_Keyset Props_Sign Props_Disk Props_Tool Props_Stream.
Import ListNotations.
Local Open Scope Z_scope.

(** C27_after_reload_partial: testdata/hmac with version 2 demoted and revoked, written to a new place, opened and given a key. *)
Example C27_after_reload_case : exists ks g ks2 ks3, made ks /\ text_ok (ks_name ks) /\ exec (WriteSet ks (bs "/new") None one_env) test_disk = (g, Ok tt) /\
  exec (open_files GenericKeyczar (bs "/new") None) g = (g, Ok ks2) /\ AddVersion ks2 [zero_draw x2a] PRIMARY None = (ks3, Ok tt).
Proof.
  set (ks := run hmac_set [OpDemote 2; OpDemote 2; OpRevoke 2]).
  set (g := fst (exec (WriteSet ks (bs "/new") None one_env) test_disk)). set (ks2 := reload ks).
  exists ks, g, ks2, (fst (AddVersion ks2 [zero_draw x2a] PRIMARY None)).
  split; [apply made_run; [apply (made_open _ _ _ hmac_set_opens) | repeat constructor]|].
  split; [apply (tx_ok "Test")|]. split; [vm_compute; reflexivity|]. split; vm_compute; reflexivity.
Qed.

(** C31_revoke_command: testdata/hmac after [keyczart demote --version=1]. *)
Example C31_revoke_command_case : exists f ks k id, exec (kcmd_prog (bs "/hmac") (CmdDemote 1) one_env) test_disk = (f, Ok tt) /\ loadable f (bs "/hmac") ks /\
  text_ok (ks_name ks) /\ ids_distinct ks /\ ring_of ks 1 = Some (INACTIVE, k) /\ key_hash_id k = Ok (Base64WSEncode id) /\ len id = 4.
Proof.
  set (f := fst (exec (kcmd_prog (bs "/hmac") (CmdDemote 1) one_env) test_disk)). set (ks := match snd (exec (open_files GenericKeyczar (bs "/hmac") None) f) with Ok k => k | Raise _ => hmac_set end).
  assert (HL : loadable f (bs "/hmac") ks) by (vm_compute; reflexivity).
  assert (exists k, ring_of ks 1 = Some (INACTIVE, k)) as (k & HR) by (eexists; vm_compute; reflexivity).
  pose proof (made_inv _ (made_open _ _ _ (loadable_open _ _ _ HL))) as I.
  destruct (ring_entry _ 1 INACTIVE k I HR) as (o & _ & HK & _). destruct (inv_hash1 _ I o k (assoc_In Nat.eqb_eq HK)) as (h & _ & HH & _).
  destruct (key_header_ok k h HH) as (id & -> & L & _). exists f, ks, k, id.
  split; [vm_compute; reflexivity|]. split; [exact HL|]. split; [apply (tx_ok "Test")|].
  split; [vm_compute; repeat constructor; cbn; intuition discriminate|]. split; [exact HR|]. split; assumption.
Qed.
