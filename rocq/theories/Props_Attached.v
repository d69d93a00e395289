(** * Props_Attached: AttachedVerify on every blob (C39). *)
From Coq Require Import Strings.String.
From Coq Require Import List ZArith NArith Bool Lia ZifyBool ZifyNat ZifyN.
From Coq.Init Require Import Byte.
From Verif Require Import PyBase PyFacts Base64 Base64Facts Sha1 Util UtilFacts KeyInfo Keys KeysFacts Keyczar KeyRing KeyczarFacts Props_Keyset Props_Sign Props_Unpack.
Import ListNotations.
Local Open Scope Z_scope.
Ltac Zify.zify_post_hook ::= idtac.

(** ** Specification *)

(** What is taken for the data, given the length field [n] and what follows it: with a negative
    length nothing, or all but the last bytes. *)
Definition data_read (n : Z) (body : str) : str :=
  if 0 <=? n then firstn (Z.to_nat n) body else if -9 <=? n then [] else firstn (Z.to_nat (len body - (- n - 9))) body.
(** What is taken for the signature: what follows the data; with a negative length the blob from one
    of its first nine bytes on, or its last bytes. *)
Definition signature_read (n : Z) (blob body : str) : str :=
  if 0 <=? n then skipn (Z.to_nat n) body else if -9 <=? n then skipn (Z.to_nat (n + 9)) blob else skipn (Z.to_nat (len blob - (- n - 9))) blob.
(** The nonce as it is signed. *)
Definition nonce_text (nonce : option str) : str := match nonce with None => [] | Some m => IntToBytes (len m) ++ m end.

(** ** C39 *)

(** For every set and history and every blob of at least nine bytes, the outcome: it depends on the
    first byte, on the key named by the next four, and on what this key says of the data and the
    signature that the length field selects. *)
Theorem C39_exactly : forall c rd ks ops ver id a1 a2 a3 a4 body n nonce, open_keyset c rd = Ok ks -> len id = 4 -> signed32 a1 a2 a3 a4 n ->
  (forall m, nonce = Some m -> len m < 2 ^ 31) ->
  let blob := ver :: id ++ [a1; a2; a3; a4] ++ body in
  let answer := AttachedVerify (run ks ops) blob nonce None in
  let data := data_read n body in
  let sig := signature_read n blob body in
  (ver <> x00 -> answer = Raise (BadVersionError (ord ver))) /\
  (ver = x00 -> (forall k, ~ named ks ops id k) -> answer = Raise (KeyNotFoundError (Base64WSEncode id))) /\
  (ver = x00 -> (exists k, named ks ops id k) ->
     exists k, named ks ops id k /\
       ((key_Verify k (data ++ nonce_text nonce ++ [x00]) sig = Ok true /\ answer = Ok (Some data)) \/
        (key_Verify k (data ++ nonce_text nonce ++ [x00]) sig = Ok false /\ answer = Ok None) \/
        (exists e, key_Verify k (data ++ nonce_text nonce ++ [x00]) sig = Raise e /\ answer = Raise e))).
Proof.
  intros c rd ks ops ver id a1 a2 a3 a4 body n nonce HO LI HS HN blob answer data sig.
  pose proof (inv_run ks ops (inv_open c rd ks HO)) as I.
  assert (T : forall k, (exists o, In (o, k) (ks_vkeys (run ks ops))) <-> held ks ops k) by (intros k; apply (vkeys_held c rd ks ops k HO)).
  assert (LB : len blob = 9 + len body) by (unfold blob; rewrite len_cons, !len_app, LI; change (len [a1; a2; a3; a4]) with 4; lia). pose proof (len_nonneg body) as B0.
  assert (EU : UnpackByteArray blob HEADER_SIZE = Ok (slice blob 9 (9 + n), 9 + n)).
  { apply (one_array blob 5 n). exists (ver :: id), a1, a2, a3, a4, body. split; [reflexivity|]. split; [exact HS|]. left. rewrite len_cons, LI. reflexivity. }
  assert (EB : blob = (ver :: id ++ [a1; a2; a3; a4]) ++ body) by (unfold blob; rewrite app_comm_cons, app_assoc; reflexivity).
  assert (L9 : List.length (ver :: id ++ [a1; a2; a3; a4]) = 9%nat) by (cbn [List.length]; rewrite app_length; cbn; unfold len in LI; lia).
  assert (S9 : skipn 9 blob = body) by (rewrite EB, <- L9, skipn_app, skipn_all, Nat.sub_diag; reflexivity).
  assert (ED : slice blob 9 (9 + n) = data).
  { unfold data, data_read, slice. cbv zeta. rewrite LB. assert (K : clamp (9 + len body) 9 = 9) by (unfold clamp; destruct (Z.ltb_spec 9 0); lia). rewrite K. change (Z.to_nat 9) with 9%nat. rewrite S9. unfold clamp.
    destruct (Z.leb_spec 0 n); [|destruct (Z.leb_spec (-9) n)].
    - destruct (Z.ltb_spec (9 + n) 0); [lia|]. destruct (Z.le_ge_cases n (len body)); [f_equal; lia|]. unfold len in *. rewrite !firstn_all2 by lia. reflexivity.
    - destruct (Z.ltb_spec (9 + n) 0); [lia|]. replace (Z.to_nat _) with 0%nat by lia. reflexivity.
    - destruct (Z.ltb_spec (9 + n) 0); [|lia]. f_equal. lia. }
  assert (EG : slice_from blob (9 + n) = sig).
  { unfold sig, signature_read, slice_from, slice. cbv zeta. rewrite LB. assert (K : clamp (9 + len body) (9 + len body) = 9 + len body) by (unfold clamp; destruct (Z.ltb_spec (9 + len body) 0); lia). rewrite K.
    assert (C : forall x, 0 <= x <= 9 + len body -> firstn (Z.to_nat (9 + len body - x)) (skipn (Z.to_nat x) blob) = skipn (Z.to_nat x) blob) by (intros x HX; apply firstn_all2; rewrite skipn_length; unfold len in *; lia).
    rewrite C by (unfold clamp; destruct (Z.ltb_spec (9 + n) 0); lia). unfold clamp. destruct (Z.leb_spec 0 n); [|destruct (Z.leb_spec (-9) n)].
    - destruct (Z.ltb_spec (9 + n) 0); [lia|]. destruct (Z.le_ge_cases n (len body)).
      + rewrite Z.min_r by lia. rewrite <- S9. rewrite skipn_skipn. f_equal. lia.
      + rewrite Z.min_l by lia. unfold len in *. rewrite !skipn_all2 by lia. reflexivity.
    - destruct (Z.ltb_spec (9 + n) 0); [lia|]. f_equal. lia.
    - destruct (Z.ltb_spec (9 + n) 0); [|lia]. f_equal. lia. }
  assert (EH : slice_to blob HEADER_SIZE = ver :: id) by (unfold blob; rewrite app_comm_cons; apply slice_to_app; rewrite len_cons, LI; reflexivity).
  assert (EN : PackByteArray nonce = Ok (nonce_text nonce)) by (destruct nonce as [m|]; [apply (PackByteArray_ok m), HN; reflexivity | reflexivity]).
  assert (EA : answer = let* k := (if negb (ord ver =? VERSION) then Raise (BadVersionError (ord ver)) else GetKey_hash (run ks ops) (Base64WSEncode id)) in
                        let* b := key_Verify k (data ++ nonce_text nonce ++ [x00]) sig in Ok (if b then Some data else None)).
  { unfold answer, AttachedVerify. cbn [apply_codec bind]. rewrite EU. cbn [bind]. rewrite ED, EG, EH. unfold InternalVerify, ParseHeader. change (index (ver :: id) 0) with (Ok ver). cbn [bind].
    assert (E1 : slice_from (ver :: id) 1 = id) by (apply (slice_from_app [ver] id); reflexivity). rewrite E1.
    destruct (negb (ord ver =? VERSION)); [reflexivity|]. destruct (GetKey_hash (run ks ops) (Base64WSEncode id)); cbn [bind]; [|reflexivity]. rewrite EN. reflexivity. }
  clearbody answer data sig. split; [|split].
  - intros HV. rewrite EA. assert (O : ord ver <> 0) by (intros O; apply HV; apply (ord_inj ver x00 O)). change VERSION with 0. destruct (Z.eqb_spec (ord ver) 0); [contradiction | reflexivity].
  - intros -> HK. rewrite EA. change (ord x00 =? VERSION) with true. cbn [negb]. destruct (GetKey_hash (run ks ops) (Base64WSEncode id)) as [k|e] eqn:EK.
    + exfalso. destruct (proj1 (GetKey_hash_spec _ _ I) k EK) as (HH & HV). apply (HK k). split; [apply T, HV | exact HH].
    + destruct (proj2 (GetKey_hash_spec _ _ I) e EK) as (-> & _). reflexivity.
  - intros -> (k0 & H0 & HH0). rewrite EA. change (ord x00 =? VERSION) with true. cbn [negb]. destruct (GetKey_hash (run ks ops) (Base64WSEncode id)) as [k|e] eqn:EK.
    + destruct (proj1 (GetKey_hash_spec _ _ I) k EK) as (HH & HV). exists k. split; [split; [apply T, HV | exact HH]|]. cbn [bind].
      destruct (key_Verify k (data ++ nonce_text nonce ++ [x00]) sig) as [[|]|e]; cbn [bind]; [left | right; left | right; right; exists e]; split; reflexivity.
    + exfalso. destruct (proj2 (GetKey_hash_spec _ _ I) e EK) as (_ & HN2). apply T in H0 as (o & HO0). apply (HN2 o k0 HO0 HH0).
Qed.
Print Assumptions C39_exactly.

(** The field -9: no data, and the whole blob for a signature; the field -10: the last byte for it. *)
Example C39_exactly_case : signed32 xff xff xff xf7 (-9) /\ data_read (-9) (bs "abc") = [] /\ signature_read (-9) (bs "whole") (bs "abc") = bs "whole" /\
  signed32 xff xff xff xf6 (-10) /\ data_read (-10) (bs "abc") = bs "ab" /\ signature_read (-10) (bs "headerabc") (bs "abc") = bs "c".
Proof. split; [apply signed_be; reflexivity|]. split; [reflexivity|]. split; [reflexivity|]. split; [apply signed_be; reflexivity | split; reflexivity]. Qed.
