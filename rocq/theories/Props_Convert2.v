(** * Props_Convert2: convert_keyset.py where it fails, on encrypted sets, and in place (C87). *)
From Coq Require Import Strings.String.
From Coq Require Import List ZArith NArith Bool Lia ZifyBool ZifyNat ZifyN.
From Coq.Init Require Import Byte.
From Verif Require Import PyBase PyFacts Util UtilFacts Base64 Base64Facts UtilFacts2 Json JsonFacts KeyInfo KeyData SymKeys AsymKeys Keys KeysFacts
  Keyczar KeyczarFacts Disk Keyczart DiskFacts CrashFacts Props_Gen Props_Asym Props_More Convert ConvertFacts Props_Convert Props_While Props_Disk Props_Stream.
Import ListNotations.
Local Open Scope Z_scope.
Ltac Zify.zify_post_hook ::= idtac.

(** ** Specification *)

(** [s'] is [s], or what the script makes of [s] in one or more runs over it. *)
Inductive rewritten (s : str) : str -> Prop :=
| AsItWas : rewritten s s
| Again s1 s2 : rewritten s s1 -> rewrite_text s1 = Ok s2 -> rewritten s s2.

(** The file [n] of the directory [l] is whole: untouched, or replaced by a complete conversion. *)
Definition whole (f g : disk) (l n : str) : Prop :=
  file g l n = file f l n \/ exists s s', file f l n = Some s /\ rewritten s s' /\ file g l n = Some s'.

(** Not a key file that the script can convert: missing, or no JSON, or a number that is no Base64. *)
Definition not_convertible (f : disk) (l n : str) : Prop := forall s s', file f l n = Some s -> rewrite_text s <> Ok s'.

(** ** Failures *)

(** Whatever the two directories are, one or two: when the script raises, the metadata of the
    destination are what they were. *)
Theorem C87_failure : forall src dst f g e, exec (doit src dst) f = (g, Raise e) ->
  file g dst meta_file = file f dst meta_file /\ (forall l n, l <> dst -> file g l n = file f l n).
Proof.
  intros src dst f g e H. split; [|intros l n NL; apply (C87_source_intact src dst f g (during_end _ _ _ _ H) l n NL)].
  unfold doit in H. cbn [exec] in H. destruct (has_dir f src); [|discriminate]. cbn [exec] in H. destruct (has_dir f dst) eqn:HD; [|discriminate].
  unfold iterate_meta, read_file, pure in H. cbn [pbind exec] in H. change (bs "meta") with meta_file in H.
  destruct (file f src meta_file) as [ms|] eqn:F; cbn [pbind exec] in H; [|apply pair_inj in H as [<- _]; reflexivity].
  destruct (loads ms) as [j|e1] eqn:L; cbn [pbind exec] in H; [|apply pair_inj in H as [<- _]; reflexivity].
  destruct (get j "versions") as [x|e1] eqn:G; cbn [pbind exec] in H; [|apply pair_inj in H as [<- _]; reflexivity].
  destruct (iterated x) as [vs|e1] eqn:I; cbn [pbind exec] in H; [|apply pair_inj in H as [<- _]; reflexivity].
  rewrite exec_bind in H. destruct (exec (rewrite_keys src dst vs) f) as [f1 r1] eqn:E1. pose proof (keys_meta src dst vs f f1 HD (during_end _ _ _ _ E1)) as K.
  destruct r1 as [[]|e1]; [|apply pair_inj in H as [<- _]; exact K]. assert (HD1 : has_dir f1 dst = true).
  { clear - E1 HD. revert f f1 HD E1. induction vs as [|v vs IH]; intros f f1 HD E1; cbn [rewrite_keys] in E1; [cbn [exec] in E1; apply pair_inj in E1 as [<- _]; exact HD|].
    unfold pure in E1. destruct (get_int v "versionNumber") as [n|e]; cbn [pbind exec] in E1; [|discriminate]. rewrite exec_bind in E1. destruct (exec (rewrite_key src dst n) f) as [f2 r2] eqn:E2.
    destruct (exec_rewrite_key src dst n f f2 r2 HD E2) as [(-> & s & s' & _ & _ & S1 & _)|(-> & e & ->)]; [|discriminate]. apply (IH f2 f1); [rewrite S1; exact HD | exact E1]. }
  destruct (write_file_ok f1 ms dst meta_file HD1) as (g' & E & _). rewrite E in H. discriminate.
Qed.
Print Assumptions C87_failure.

Lemma keys_stop src dst n : forall vs f v, has_dir f dst = true -> In v vs -> get_int v "versionNumber" = Ok n -> not_convertible f src (key_file n) ->
  exists g e, exec (rewrite_keys src dst vs) f = (g, Raise e).
Proof.
  induction vs as [|w vs IH]; intros f v HD HI G NC; [destruct HI|]. cbn [rewrite_keys]. unfold pure. destruct (get_int w "versionNumber") as [n0|e] eqn:G0; cbn [pbind exec]; [|eauto].
  rewrite exec_bind. destruct (exec (rewrite_key src dst n0) f) as [f1 r1] eqn:E1.
  destruct (exec_rewrite_key src dst n0 f f1 r1 HD E1) as [(-> & s & s' & F & T & [S1 S2])|(-> & e & ->)]; [|eauto].
  assert (NE : key_file n0 <> key_file n) by (intros C; rewrite C in F; exact (NC s s' F T)).
  destruct HI as [<-|HI]; [exfalso; apply NE; congruence|].
  apply (IH f1 v); [rewrite S1; exact HD | exact HI | exact G|]. intros t t' Ft. apply (NC t t'). rewrite S2 in Ft. rewrite (str_eqb_neq _ _ NE), andb_false_r in Ft. exact Ft.
Qed.

(** A listed key file that cannot be converted stops the script, and the destination does not get the
    metadata of the source. *)
Theorem C87_not_convertible : forall src dst f ms n, has_dir f dst = true -> file f src meta_file = Some ms ->
  lists_version ms n -> not_convertible f src (key_file n) ->
  exists g e, exec (doit src dst) f = (g, Raise e) /\ file g dst meta_file = file f dst meta_file.
Proof.
  intros src dst f ms n HD F (j & l & v & L & A & HI & G) NC.
  assert (R : exists g e, exec (doit src dst) f = (g, Raise e)); [|destruct R as (g & e & R); exists g, e; split; [exact R | exact (proj1 (C87_failure _ _ _ _ _ R))]].
  unfold doit. cbn [exec]. rewrite (has_dir_file _ _ _ _ F). cbn [exec]. rewrite HD. unfold iterate_meta, read_file, pure. cbn [pbind exec]. change (bs "meta") with meta_file. rewrite F. cbn [pbind exec].
  rewrite L. cbn [pbind]. unfold get_arr in A. apply bind_Ok in A as (x & Gx & A). rewrite Gx. cbn [pbind]. destruct x; try discriminate. apply Ok_inj in A as ->. cbn [iterated pbind].
  rewrite exec_bind. destruct (keys_stop src dst n l f v HD HI G NC) as (g & e & ->). exists g, e. reflexivity.
Qed.
Print Assumptions C87_not_convertible.

(** ** Encrypted sets *)

Lemma encoded_A b : exists t, Base64WSEncode (x00 :: b) = "A"%byte :: t.
Proof.
  unfold Base64WSEncode. destruct b as [|c [|d b]]; cbn [b2a_base64]; change (ord x00 / 4) with 0; change (b64_char 0) with "A"%byte; cbn [map filter];
    change (beqb (to_urlsafe "A"%byte) "="%byte) with false; cbv [negb]; eexists; reflexivity.
Qed.

Lemma loads_A t : loads ("A"%byte :: t) = Raise ValueError.
Proof. unfold loads. change (skip_ws ("A"%byte :: t)) with ("A"%byte :: t). cbn [length Nat.mul]. reflexivity. Qed.

(** What a set of crypting keys writes for a key is no JSON text. *)
Lemma encrypted_text e cr m s : Encrypt e cr m b64_encoder = Ok s -> loads s = Raise ValueError.
Proof.
  unfold Encrypt. intros H. apply bind_Ok in H as (k & _ & H). apply bind_Ok in H as (c & Hc & H). destruct (key_Encrypt_header e k m c Hc) as (h & t & Hh & ->).
  unfold key_header in Hh. apply bind_Ok in Hh as (i & _ & Hh). unfold make_header in Hh. unfold apply_codec, b64_encoder in H. apply Ok_inj in H as <-.
  apply bind_Ok in Hh as (d & _ & Hh). apply Ok_inj in Hh as <-. change (chr VERSION) with x00. destruct (encoded_A (d ++ t)) as (r & E). cbn [app]. rewrite E. apply loads_A.
Qed.

(** Encrypted sets are not converted: with one key that is a ciphertext of crypting keys, whichever, the
    script raises and writes no metadata. *)
Theorem C87_encrypted : forall src dst f ms n s e cr m, has_dir f dst = true -> file f src meta_file = Some ms ->
  lists_version ms n -> file f src (key_file n) = Some s -> Encrypt e cr m b64_encoder = Ok s ->
  exists g err, exec (doit src dst) f = (g, Raise err) /\ file g dst meta_file = file f dst meta_file.
Proof.
  intros src dst f ms n s e cr m HD F LV FS HE. apply (C87_not_convertible src dst f ms n HD F LV). intros t t' Ft. rewrite FS in Ft. apply Some_inj in Ft as <-.
  unfold rewrite_text. rewrite (encrypted_text e cr m s HE). discriminate.
Qed.
Print Assumptions C87_encrypted.

(** ** In place *)

Lemma rewritten_trans a b c : rewritten a b -> rewritten b c -> rewritten a c.
Proof. intros H H'. induction H' as [|s1 s2 _ IH T]; [exact H | apply (Again a s1 s2 IH T)]. Qed.
Lemma whole_trans f g h l n : whole f g l n -> whole g h l n -> whole f h l n.
Proof.
  intros [A|(s & s' & A1 & A2 & A3)] [B|(t & t' & B1 & B2 & B3)].
  - left. congruence.
  - right. exists t, t'. rewrite <- A. auto.
  - right. exists s, s'. rewrite B. auto.
  - right. exists s, t'. split; [exact A1|]. split; [|exact B3]. rewrite A3 in B1. apply Some_inj in B1 as <-. exact (rewritten_trans _ _ _ A2 B2).
Qed.

Lemma set_whole f g l n0 s s' : file f l n0 = Some s -> rewrite_text s = Ok s' -> set_to f g l n0 s' -> forall n, whole f g l n.
Proof.
  intros F T [_ S2] n. unfold whole. rewrite S2, str_eqb_refl. cbn [andb]. destruct (str_eqb n0 n) eqn:E; [|left; reflexivity].
  apply str_eqb_eq in E as <-. right. exists s, s'. split; [exact F|]. split; [apply (Again s s s' (AsItWas s) T) | reflexivity].
Qed.

Lemma first_step a b c : rewritten a b -> rewrite_text b = Ok c -> exists a1, rewrite_text a = Ok a1 /\ rewritten a1 c.
Proof.
  intros H. revert c. induction H as [|s1 s2 H IH T]; intros c TC; [exists c; split; [exact TC | constructor]|].
  destruct (IH s2 T) as (a1 & T1 & R1). exists a1. split; [exact T1 | apply (Again a1 s2 c R1 TC)].
Qed.

Lemma exec_keys_in_place l : forall vs f g r, has_dir f l = true -> exec (rewrite_keys l l vs) f = (g, r) ->
  (forall l', has_dir g l' = has_dir f l') /\ (forall n, whole f g l n) /\
  (r = Ok tt -> forall v, In v vs -> exists n s s1 s', get_int v "versionNumber" = Ok n /\ file f l (key_file n) = Some s /\ rewrite_text s = Ok s1 /\ rewritten s1 s' /\ file g l (key_file n) = Some s').
Proof.
  induction vs as [|v vs IH]; intros f g r HD H; cbn [rewrite_keys] in H.
  - cbn [exec] in H. apply pair_inj in H as [<- <-]. split; [reflexivity|]. split; [left; reflexivity | intros _ v []].
  - unfold pure in H. destruct (get_int v "versionNumber") as [n|e] eqn:G; cbn [pbind exec] in H; [|apply pair_inj in H as [<- <-]; split; [reflexivity|]; split; [left; reflexivity | discriminate]].
    rewrite exec_bind in H. destruct (exec (rewrite_key l l n) f) as [f1 r1] eqn:E1.
    destruct (exec_rewrite_key l l n f f1 r1 HD E1) as [(-> & s & s' & F & T & S)|(-> & e & ->)]; [|apply pair_inj in H as [<- <-]; split; [reflexivity|]; split; [left; reflexivity | discriminate]].
    pose proof (set_whole f f1 l _ s s' F T S) as W. destruct S as [S1 S2]. destruct (IH f1 g r) as (I1 & I2 & I3); [rewrite S1; exact HD | exact H|].
    split; [intros l'; rewrite I1; apply S1|]. split; [intros m; apply (whole_trans f f1 g l m (W m) (I2 m))|].
    intros ER u [<-|HI].
    + assert (F1 : file f1 l (key_file n) = Some s') by (rewrite S2, !str_eqb_refl; reflexivity).
      destruct (I2 (key_file n)) as [E|(t & t' & Ft & Rt & Et)].
      * exists n, s, s', s'. rewrite E. split; [exact G|]. split; [exact F|]. split; [exact T|]. split; [constructor | exact F1].
      * rewrite F1 in Ft. apply Some_inj in Ft as <-. exists n, s, s', t'. auto.
    + destruct (I3 ER u HI) as (n' & t & t1 & t' & Gt & Ft & Tt & Rt & E). destruct (W (key_file n')) as [X|(w & w' & Xf & Xr & Xg)].
      * exists n', t, t1, t'. rewrite <- X. auto.
      * rewrite Ft in Xg. apply Some_inj in Xg as <-. exists n', w. destruct (first_step w t t1 Xr Tt) as (w1 & T1 & R1). exists w1, t'. split; [exact Gt|]. split; [exact Xf|]. split; [exact T1|].
        split; [exact (rewritten_trans _ _ _ R1 Rt) | exact E].
Qed.

Lemma same_held_trans a b c : same_held a b -> same_held b c -> same_held a c.
Proof.
  intros [S1 H1] [S2 H2]. split; [|congruence]. clear H1 H2.
  destruct a, b; try contradiction S1; destruct c; try contradiction S2; cbn [same_key] in *; unfold same_rsapub, same_dsapub in *; intuition congruence.
Qed.

Lemma rewritten_key t s s' : rewritten s s' -> forall v k, loads s = Ok v -> json_ok v -> ReadKey t s = Ok k ->
  (exists v', loads s' = Ok v' /\ json_ok v') /\ exists k', ReadKey t s' = Ok k' /\ same_held k k'.
Proof.
  induction 1 as [|s1 s2 H IH T]; intros v k L O R.
  - split; [eauto|]. exists k. split; [exact R|]. split; [|reflexivity]. destruct k; cbn [same_key]; unfold same_rsapub, same_dsapub; auto 10.
  - destruct (IH v k L O R) as ((v1 & L1 & O1) & k1 & R1 & S1). destruct (C87_key t s1 v1 s2 k1 L1 O1 T R1) as (k2 & R2 & S2 & H2).
    destruct (rewrite_text_inv s1 s2 v1 L1 O1 T) as (w & _ & _ & Ow & Lw). split; [eauto|]. exists k2. split; [exact R2|]. apply (same_held_trans k k1 k2 S1). split; assumption.
Qed.

Lemma exec_in_place l f g : exec (iterate_meta l l) f = (g, Ok tt) -> has_dir f l = true ->
  exists ms j x vs, file f l meta_file = Some ms /\ loads ms = Ok j /\ get j "versions" = Ok x /\ iterated x = Ok vs /\
  (forall l', has_dir g l' = has_dir f l') /\ file g l meta_file = Some ms /\
  (forall v, In v vs -> exists n s s1 s', get_int v "versionNumber" = Ok n /\ file f l (key_file n) = Some s /\ rewrite_text s = Ok s1 /\ rewritten s1 s' /\ file g l (key_file n) = Some s').
Proof.
  intros H HD. unfold iterate_meta, read_file, pure in H. cbn [pbind exec] in H. change (bs "meta") with meta_file in H.
  destruct (file f l meta_file) as [ms|] eqn:F; cbn [pbind exec] in H; [|discriminate].
  destruct (loads ms) as [j|e] eqn:L; cbn [pbind exec] in H; [|discriminate].
  destruct (get j "versions") as [x|e] eqn:G; cbn [pbind exec] in H; [|discriminate].
  destruct (iterated x) as [vs|e] eqn:I; cbn [pbind exec] in H; [|discriminate].
  rewrite exec_bind in H. destruct (exec (rewrite_keys l l vs) f) as [f1 r1] eqn:E1.
  destruct (exec_keys_in_place l vs f f1 r1 HD E1) as (K1 & _ & K3). destruct r1 as [[]|e]; [|discriminate].
  assert (HD1 : has_dir f1 l = true) by (rewrite K1; exact HD). destruct (write_file_ok f1 ms l meta_file HD1) as (g' & E & [S1 S2]). rewrite E in H. apply pair_inj in H as [<- _].
  exists ms, j, x, vs. split; [reflexivity|]. split; [exact L|]. split; [exact G|]. split; [exact I|]. split; [intros l'; rewrite S1; apply K1|]. split; [rewrite S2, !str_eqb_refl; reflexivity|].
  intros v HI. destruct (K3 eq_refl v HI) as (n & s & s1 & s' & Gn & Fs & Ts & Rs & Es). exists n, s, s1, s'. repeat split; auto. rewrite S2, meta_key_eqb, andb_false_r. exact Es.
Qed.

(** With one directory as source and destination the script, if it runs to its end, converts every
    listed key at least once, and the set answers as before. *)
Theorem C87_in_place : forall l f g c ks, exec (doit l l) f = (g, Ok tt) -> exec (read_location c l) f = (f, Ok ks) ->
  (forall n s v, file f l (key_file n) = Some s -> loads s = Ok v -> json_ok v) ->
  (exists ks', exec (read_location c l) g = (g, Ok ks') /\ ks_meta ks' = ks_meta ks /\ answer_alike ks ks') /\
  exists ms, file f l meta_file = Some ms /\ forall n, lists_version ms n -> exists s s1 s',
    file f l (key_file n) = Some s /\ rewrite_text s = Ok s1 /\ rewritten s1 s' /\ file g l (key_file n) = Some s'.
Proof.
  intros l f g c ks H HR HJ. rewrite exec_read_location in HR. destruct (has_dir f l) eqn:HD; [|discriminate].
  unfold doit in H. cbn [exec] in H. rewrite HD in H. cbn [exec] in H. rewrite HD in H. destruct (exec_in_place l f g H HD) as (ms & j & x & vs & F & L & G & I & K1 & K3 & K4).
  assert (LV : forall n, lists_version ms n -> exists s s1 s', file f l (key_file n) = Some s /\ rewrite_text s = Ok s1 /\ rewritten s1 s' /\ file g l (key_file n) = Some s').
  { intros n (j' & a & y & Lj & A & Iy & Gy). assert (j' = j) by congruence. subst j'. pose proof (iterated_arr j vs x G I a A) as ->. destruct (K4 y Iy) as (n' & t & t1 & t' & Gn & X).
    assert (n' = n) by congruence. subst n'. exists t, t1, t'. exact X. }
  split; [|exists ms; auto].
  rewrite exec_read_location, K1, HD. rewrite exec_open in HR |- *. apply pair_inj in HR as [_ HR]. cbn [disk_reader] in HR |- *.
  unfold open_keyset in HR |- *. cbn [rd_meta file_reader] in HR |- *. rewrite F in HR. rewrite K3. cbn [answer bind] in HR |- *.
  destruct (meta_Read ms) as [m|e] eqn:EM; cbn [bind] in HR |- *; [|discriminate]. destruct (negb (IsAcceptablePurpose c (m_purpose m))); [discriminate|].
  change (rd_encrypted (file_reader f l)) with false in HR. change (rd_encrypted (file_reader g l)) with false. destruct (m_encrypted m && negb false); [discriminate|]. apply bind_Ok in HR as ([[q vk] hk] & HL & HR). apply Ok_inj in HR as <-.
  destruct (load_alike (file_reader f l) (file_reader g l) (m_type m) (meta_versions m) 0 None [] [] [] [] q vk hk) as (vk' & hk' & HL' & P1 & P2);
    [| constructor | constructor | exact HL|].
  - intros v s k HI Es Ek. cbn [rd_key file_reader] in Es |- *. destruct (LV _ (meta_lists ms m EM v HI)) as (t & t1 & t' & Ft & Tt & Rt & Et).
    rewrite Ft in Es. cbn [answer] in Es. apply Ok_inj in Es as <-. pose proof Tt as Tt0. unfold rewrite_text in Tt0. destruct (loads t) as [w|e] eqn:Lt; [|discriminate Tt0]. clear Tt0.
    destruct (rewritten_key (m_type m) t t' (rewritten_trans t t1 t' (Again t t t1 (AsItWas t) Tt) Rt) w k Lt (HJ _ _ _ Ft Lt) Ek) as (_ & k' & Rk & S).
    exists t', k'. rewrite Et. split; [reflexivity|]. split; [exact Rk | exact S].
  - rewrite HL'. cbn [bind]. eexists. split; [reflexivity|]. split; [reflexivity|]. apply alike_answers. split; [reflexivity|]. split; [reflexivity|]. split; assumption.
Qed.
Print Assumptions C87_in_place.

(** However often a key file is converted, every number in it is still the number that the library read
    before, and not negative when read as two's complement. *)
Theorem C87_numbers_again : forall s s1 s' v path x name b, loads s = Ok v -> json_ok v -> rewrite_text s = Ok s1 -> rewritten s1 s' ->
  reach v path = Ok x -> In name number_names -> get_b64 x name = Ok b ->
  exists w y b', loads s' = Ok w /\ reach w path = Ok y /\ get_b64 y name = Ok b' /\ signed b' = BytesToLong b /\ BytesToLong b' = BytesToLong b.
Proof.
  intros s s1 s' v path x name b L O T R HP HN HB.
  assert (G : exists w y b', json_ok w /\ loads s' = Ok w /\ reach w path = Ok y /\ get_b64 y name = Ok b' /\ signed b' = BytesToLong b /\ BytesToLong b' = BytesToLong b).
  { induction R as [|s2 s3 R IH T3].
    - destruct (C87_numbers s v s1 path x name b L O T HP HN HB) as (w & y & b' & Lw & X). destruct (rewrite_text_inv s s1 v L O T) as (w' & _ & _ & Ow & Lw'). assert (w' = w) by congruence. subst w'.
      exists w, y, b'. split; [exact Ow|]. split; [exact Lw | exact X].
    - destruct IH as (w & y & b' & Ow & Lw & Ry & Gy & _ & B2). destruct (C87_numbers s2 w s3 path y name b' Lw Ow T3 Ry HN Gy) as (w' & y' & b2 & Lw' & Ry' & Gy' & S1 & S2).
      destruct (rewrite_text_inv s2 s3 w Lw Ow T3) as (w2 & _ & _ & Ow2 & Lw2). assert (w2 = w') by congruence. subst w2.
      exists w', y', b2. repeat split; congruence. }
  destruct G as (w & y & b' & _ & X). exists w, y, b'. exact X.
Qed.
Print Assumptions C87_numbers_again.

(** ** Interrupted in place *)

Lemma whole_refl f l n : whole f f l n.
Proof. left. reflexivity. Qed.

Lemma key_part l n f g : has_dir f l = true -> during f (rewrite_key l l n) g -> exists one, forall m, m <> one -> file g l m = file f l m.
Proof.
  intros HD H. unfold rewrite_key in H. apply during_bind in H as [H|(f1 & s & E & H)].
  - apply during_reads in H as ->; [exists []; reflexivity|]. unfold read_file. cbn [reads]. intros []; exact I.
  - unfold read_file in E. cbn [exec] in E. destruct (file f l (int_to_str n)); [|discriminate E]. cbn [exec] in E. apply pair_inj in E as [<- _].
    apply during_bind in H as [H|(f2 & s' & E2 & H)]; [apply during_Done in H as ->; exists []; reflexivity|]. rewrite exec_pure in E2. apply pair_inj in E2 as [<- _].
    apply during_write_file in H as [->|(d1 & d2 & _ & _ & S)]; [exists []; reflexivity|]. exists (int_to_str n). intros m NM. apply (set_to_other f g _ _ d1 l m S). right. exact NM.
Qed.

Lemma keys_part l : forall vs f g, has_dir f l = true -> during f (rewrite_keys l l vs) g -> exists one, forall m, m <> one -> whole f g l m.
Proof.
  induction vs as [|v vs IH]; intros f g HD H; cbn [rewrite_keys] in H; [apply during_Done in H as ->; exists []; intros m _; apply whole_refl|].
  unfold pure in H. destruct (get_int v "versionNumber") as [n|e]; cbn [pbind] in H; [|apply during_Done in H as ->; exists []; intros m _; apply whole_refl].
  apply during_bind in H as [H|(f1 & [] & E & H)]; [destruct (key_part l n f g HD H) as (one & A); exists one; intros m NM; left; apply A; exact NM|].
  destruct (exec_rewrite_key l l n f f1 _ HD E) as [(_ & s & s' & F & T & S)|(_ & e & C)]; [|discriminate].
  destruct (IH f1 g) as (one & A); [rewrite (proj1 S); exact HD | exact H|]. exists one. intros m NM. apply (whole_trans f f1 g l m); [apply (set_whole f f1 l _ s s' F T S) | apply A; exact NM].
Qed.

(** Stopped at any moment, all files of the set but at most one are whole. *)
Theorem C87_in_place_stopped : forall l f g, during f (doit l l) g -> exists one, forall n, n <> one -> whole f g l n.
Proof.
  intros l f g H. unfold doit in H. assert (Z : exists one, forall n, n <> one -> whole f f l n) by (exists []; intros n _; apply whole_refl).
  apply during_cases in H as [->|[(l0 & n0 & d0 & d1 & d2 & k0 & EP & _)|(f' & p' & ES & H)]]; [exact Z | discriminate EP|]. cbn [dstep] in ES. apply pair_inj in ES as [<- <-].
  destruct (has_dir f l) eqn:HD; [|apply during_Done in H as ->; exact Z].
  apply during_cases in H as [->|[(l0 & n0 & d0 & d1 & d2 & k0 & EP & _)|(f' & p' & ES & H)]]; [exact Z | discriminate EP|]. cbn [dstep] in ES. apply pair_inj in ES as [<- <-].
  rewrite HD in H. unfold iterate_meta in H. apply during_bind in H as [H|(f1 & ms & E & H)].
  { apply during_reads in H as ->; [exact Z|]. unfold read_file. cbn [reads]. intros []; exact I. }
  unfold read_file in E. cbn [exec] in E. destruct (file f l (bs "meta")) as [s0|] eqn:F; [|discriminate E]. cbn [exec] in E. apply pair_inj in E as [<- E]. apply Ok_inj in E as ->.
  unfold pure in H. destruct (loads ms) as [j|e]; cbn [pbind] in H; [|apply during_Done in H as ->; exact Z].
  destruct (get j "versions") as [x|e]; cbn [pbind] in H; [|apply during_Done in H as ->; exact Z].
  destruct (iterated x) as [vs|e]; cbn [pbind] in H; [|apply during_Done in H as ->; exact Z].
  apply during_bind in H as [H|(f2 & [] & E & H)]; [exact (keys_part l vs f g HD H)|].
  destruct (exec_keys_in_place l vs f f2 _ HD E) as (_ & K2 & _).
  apply during_write_file in H as [->|(d1 & d2 & _ & _ & S)]; [exists []; intros n _; apply K2|]. exists (bs "meta"). intros n NM.
  apply (whole_trans f f2 g l n (K2 n)). left. apply (set_to_other f2 g _ _ d1 l n S). right. exact NM.
Qed.
Print Assumptions C87_in_place_stopped.

Lemma add_versions_has : forall vs m m' n, add_versions m vs = Ok m' ->
  (exists v, In v vs /\ get_int v "versionNumber" = Ok n) \/ assoc Z.eqb (m_versions m) n <> None -> exists n' v, n' = n /\ In (n', v) (m_versions m').
Proof.
  induction vs as [|j vs IH]; intros m m' n H D; cbn [add_versions] in H.
  - apply Ok_inj in H as <-. destruct D as [(v & [] & _)|D]. destruct (assoc Z.eqb (m_versions m) n) as [v|] eqn:A; [|contradiction]. exists n, v. split; [reflexivity | exact (assoc_In Z.eqb_eq A)].
  - apply bind_Ok in H as (w & Ew & H). apply (IH _ m' n H). destruct D as [(v & [->|HI] & G)|D]; [right | left; eauto | right].
    + assert (v_num w = n) as <-. { unfold version_read in Ew. rewrite G in Ew. cbn [bind] in Ew. do 3 (apply bind_Ok in Ew as (? & _ & Ew)). apply Ok_inj in Ew as <-. reflexivity. }
      unfold meta_AddVersion. destruct (assoc Z.eqb (m_versions m) (v_num w)) eqn:A; cbn [fst m_versions]; [rewrite A; discriminate|].
      intros C. assert (X : In (v_num w, w) (m_versions m ++ [(v_num w, w)])) by (apply in_or_app; right; left; reflexivity). clear - C X.
      induction (m_versions m ++ [(v_num w, w)]) as [|[a b] r IH]; [destruct X|]. cbn [assoc] in C. destruct (Z.eqb a (v_num w)) eqn:E; [discriminate|]. destruct X as [X|X]; [injection X as -> ->; lia | exact (IH C X)].
    + unfold meta_AddVersion. destruct (assoc Z.eqb (m_versions m) (v_num w)) eqn:A; cbn [fst m_versions]; [exact D|].
      clear - D. induction (m_versions m) as [|[a b] r IH]; [exfalso; apply D; reflexivity|]. cbn [app assoc] in *. destruct (Z.eqb a n); [discriminate | exact (IH D)].
Qed.

(** Interrupted in place, a set can be lost: from every set with a version whose first listed key can be
    converted, there is a moment at which no class opens what is left. *)
Theorem C87_in_place_can_lose_the_set : forall l f ms j v vs n s s', file f l meta_file = Some ms -> loads ms = Ok j ->
  get_arr j "versions" = Ok (v :: vs) -> get_int v "versionNumber" = Ok n -> file f l (key_file n) = Some s -> rewrite_text s = Ok s' ->
  exists g, during f (doit l l) g /\ file g l (key_file n) = Some [] /\ forall c ks, exec (read_location c l) g <> (g, Ok ks).
Proof.
  intros l f ms j v vs n s s' F L A G FS T. pose proof (has_dir_file _ _ _ _ F) as HD.
  destruct (during_opened f s' l (key_file n) HD) as (g & HG & S). exists g. pose proof S as [S1 S2].
  assert (FG : file g l (key_file n) = Some []) by (rewrite S2, !str_eqb_refl; reflexivity).
  assert (FM : file g l meta_file = Some ms) by (rewrite S2, key_meta_eqb, andb_false_r; exact F).
  split; [|split; [exact FG|]].
  - unfold doit. eapply DurStep; [reflexivity|]. rewrite HD. eapply DurStep; [reflexivity|]. rewrite HD. unfold iterate_meta. change (bs "meta") with meta_file.
    eapply during_bind_r; [unfold read_file; cbn [exec]; rewrite F; reflexivity|]. unfold pure. rewrite L. cbn [pbind]. unfold get_arr in A. apply bind_Ok in A as (x & Gx & A). rewrite Gx. cbn [pbind].
    destruct x; try discriminate. apply Ok_inj in A as ->. cbn [iterated pbind]. apply during_bind_l. cbn [rewrite_keys]. unfold pure. rewrite G. cbn [pbind]. apply during_bind_l.
    unfold rewrite_key. change (int_to_str n) with (key_file n). eapply during_bind_r; [unfold read_file; cbn [exec]; rewrite FS; reflexivity|]. unfold pure. rewrite T. cbn [pbind].
    unfold write_file. unfold WriteFile in HG. apply during_cases in HG as [->|[(l0 & n0 & d0 & d1 & d2 & k0 & EP & _)|(f' & p' & ES & HS)]].
    + constructor.
    + discriminate EP.
    + cbn [dstep] in ES. rewrite HD in ES. apply pair_inj in ES as [<- <-]. eapply DurStep; [cbn [dstep]; rewrite HD; reflexivity|]. exact HS.
  - intros c ks H. rewrite exec_read_location in H. destruct (has_dir g l); [|discriminate]. rewrite exec_open in H. apply pair_inj in H as [_ H]. cbn [disk_reader] in H.
    unfold open_keyset in H. cbn [rd_meta file_reader] in H. rewrite FM in H. cbn [answer bind] in H. destruct (meta_Read ms) as [m|e] eqn:EM; cbn [bind] in H; [|discriminate].
    destruct (negb _); [discriminate|]. destruct (_ && _); [discriminate|]. apply bind_Ok in H as ([[q vk] hk] & HL & _).
    destruct (load_keys_ok _ _ _ _ _ _ _ _ _ _ HL) as (ks' & FL & _).
    assert (HV : exists w, In w (meta_versions m) /\ v_num w = n).
    { unfold meta_Read in EM. rewrite L in EM. cbn [bind] in EM. do 6 (apply bind_Ok in EM as (? & _ & EM)). apply bind_Ok in EM as (a & GA & EM). rewrite A in GA. apply Ok_inj in GA as <-.
      assert (W : forall a b, In (a, b) (m_versions m) -> v_num b = a) by (intros a0 b0 HI0; destruct (add_versions_wf _ _ _ EM ltac:(split; [constructor | constructor])) as [_ W]; rewrite Forall_forall in W; exact (W _ HI0)). destruct (add_versions_has _ _ _ n EM) as (n' & w & -> & HI); [left; exists v; split; [left; reflexivity | exact G]|].
      exists w. split; [unfold meta_versions; apply (in_map snd) in HI; exact HI | exact (W n w HI)]. }
    destruct HV as (w & HI & NW). assert (HK : exists k, loaded (file_reader g l) (m_type m) w k) by (clear - FL HI; induction FL as [|a b la lb R FL IH]; [destruct HI|]; destruct HI as [->|HI]; [eauto | exact (IH HI)]).
    destruct HK as (k & t & h & Et & Rt & _). cbn [rd_key file_reader] in Et. rewrite NW, FG in Et. cbn [answer] in Et. apply Ok_inj in Et as <-.
    apply key_object in Rt as (o & C). vm_compute in C. discriminate C.
Qed.
Print Assumptions C87_in_place_can_lose_the_set.

(** ** The command line *)

(** Arguments after the second are ignored; with fewer than two the script fails and touches nothing. *)
Theorem C87_command_line : forall argv f,
  (forall prog src dst rest, argv = prog :: src :: dst :: rest -> exec (script argv) f = exec (doit src dst) f) /\
  ((length argv < 3)%nat -> exec (script argv) f = (f, Raise IndexError)).
Proof.
  intros argv f. split; [intros p s d r ->; reflexivity|]. destruct argv as [|a [|b [|c r]]]; cbn [length]; intros H; [reflexivity | reflexivity | reflexivity | lia].
Qed.
Print Assumptions C87_command_line.

(** ** Cases *)

(** The set of [C87_case] in one directory: the script converts it in place; stopped after opening the
    key file it has lost the key. *)
Example C87_in_place_case :
  exec (doit (bs "old") (bs "old")) old_disk = ([(bs "old", [(bs "meta", old_meta); (bs "1", new_key)]); (bs "new", [])], Ok tt) /\
  lists_version old_meta 1 /\ file old_disk (bs "old") meta_file = Some old_meta /\ file old_disk (bs "old") (key_file 1) = Some old_key /\ rewrite_text old_key = Ok new_key.
Proof.
  split; [vm_compute; reflexivity|]. split; [|repeat split; vm_compute; reflexivity].
  unfold lists_version. destruct (loads old_meta) as [j|e] eqn:L; [|vm_compute in L; discriminate L]. vm_compute in L. apply Ok_inj in L as <-.
  do 3 eexists. split; [reflexivity|]. split; [vm_compute; reflexivity|]. split; [left; reflexivity | vm_compute; reflexivity].
Qed.

(** The same set with an encrypted key file, written with the AES set of Props_Disk. *)
Example C87_encrypted_case : exists e s, Encrypt e aes_set old_key b64_encoder = Ok s /\
  let f := [(bs "old", [(bs "meta", old_meta); (bs "1", s)]); (bs "new", [])] in
  has_dir f (bs "new") = true /\ file f (bs "old") meta_file = Some old_meta /\ file f (bs "old") (key_file 1) = Some s /\
  not_convertible f (bs "old") (key_file 1) /\ exec (doit (bs "old") (bs "new")) f = (f, Raise ValueError).
Proof.
  destruct aes_case as (k & kb & hb & A & _). set (e := MkEnv PyCrypto (fun _ => x00) 0). destruct (aes_primary_Encrypt e aes_set k kb hb old_key A) as (hdr & _ & _ & EP & _ & EE).
  assert (X : exists s, Encrypt e aes_set old_key b64_encoder = Ok s).
  { unfold Encrypt in *. rewrite EP in *. cbn [bind] in *. destruct (key_Encrypt e (KAes k) old_key); [eexists; reflexivity | discriminate]. }
  destruct X as (s & E). exists e, s. split; [exact E|]. pose proof (encrypted_text e aes_set old_key s E) as N. intros f.
  assert (M : file f (bs "old") meta_file = Some old_meta) by (vm_compute; reflexivity). assert (K : file f (bs "old") (key_file 1) = Some s) by (vm_compute; reflexivity).
  split; [reflexivity|]. split; [exact M|]. split; [exact K|]. split.
  - intros t t' H. rewrite K in H. apply Some_inj in H as <-. unfold rewrite_text. rewrite N. discriminate.
  - unfold doit. cbn [exec]. change (has_dir f (bs "old")) with true. cbn [exec]. change (has_dir f (bs "new")) with true. cbv iota. unfold iterate_meta, read_file, pure. cbn [pbind exec].
    change (bs "meta") with meta_file. rewrite M. cbn [pbind exec]. replace (loads old_meta) with (loads (bs "{""name"": ""k"", ""purpose"": ""VERIFY"", ""type"": ""RSA_PUB"", ""encrypted"": false, ""versions"": [{""versionNumber"": 1, ""status"": ""PRIMARY"", ""exportable"": false}]}")) by reflexivity.
    destruct C87_in_place_case as (_ & (j & l & v & L & G & _) & _). unfold old_meta in L. destruct (loads (bs _)) as [j'|er] eqn:L'; [|discriminate L]. vm_compute in L'. apply Ok_inj in L' as <-.
    cbn [pbind]. match goal with |- context[get ?o "versions"] => replace (get o "versions") with (get o "versions") by reflexivity; let y := eval vm_compute in (get o "versions") in change (get o "versions") with y end.
    cbn [pbind iterated rewrite_keys]. unfold pure. match goal with |- context[get_int ?o "versionNumber"] => change (get_int o "versionNumber") with (@Ok Z 1) end. cbn [pbind].
    unfold rewrite_key, read_file. cbn [pbind exec]. change (int_to_str 1) with (key_file 1). rewrite K. cbn [pbind exec]. unfold pure, rewrite_text. rewrite N. reflexivity.
Qed.
