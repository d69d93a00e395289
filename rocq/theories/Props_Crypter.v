(** * Props_Crypter: exporting public keys (C65), and sets encrypted with --crypter (C66). *)
From Coq Require Import Strings.String.
From Coq Require Import List ZArith NArith Bool Lia ZifyBool ZifyNat ZifyN.
From Coq.Init Require Import Byte.
From Verif Require Import PyBase PyFacts Sha1 Base64 Base64Facts Util UtilFacts Json JsonFacts KeyInfo SymKeys ModArith Der AsymSpec AsymKeys AsymFacts Keys KeysFacts KeyData Keyczar KeyRing
  KeyczarFacts UtilFacts2 SymFacts Props_Util Props_Sym Props_Asym Props_Keyset Props_Sign Disk Keyczart DiskFacts CrashFacts Props_Disk Props_Tool Props_Cmd Props_Session GenKeySet Props_Gen.
Import ListNotations.
Local Open Scope Z_scope.
Ltac Zify.zify_post_hook ::= idtac.

(** ** C65 *)

(** At every moment of [pubkey], whatever its outcome, all other locations are as they were. *)
Theorem C65_only_the_destination : forall loc dest f g', during f (PubKeyCmd loc (Some dest)) g' ->
  (forall l, has_dir g' l = has_dir f l) /\ forall l n, l <> dest -> file g' l n = file f l n.
Proof.
  intros [l|] dest f g' H.
  - destruct (during_only (fun d => d = dest) _ f g' (only_PubKey _ l dest eq_refl) H) as [A B]. split; [exact A|]. intros l' n D. apply B, D.
  - cbn [PubKeyCmd CreateGenericKeyczar pbind] in H. apply during_Done in H as ->. split; reflexivity.
Qed.
Print Assumptions C65_only_the_destination.

(** So the private set goes on working as before. *)
Theorem C65_private_set_intact : forall l dest f g r c cr, exec (PubKeyCmd (Some l) (Some dest)) f = (g, r) -> l <> dest ->
  snd (exec (open_files c l cr) g) = snd (exec (open_files c l cr) f).
Proof.
  intros l dest f g r c cr H D. destruct (C65_only_the_destination (Some l) dest f g (during_end _ _ _ _ H)) as [_ B].
  rewrite !exec_open. cbn [snd]. apply open_same_files. intros n. apply B, D.
Qed.
Print Assumptions C65_private_set_intact.

(** REFUTED when the destination is the location itself: the command succeeds, and has replaced
    every private key by its public half.  Nothing that decrypts or signs opens any more. *)
Theorem C65_same_location_refuted : forall l f ks pt pp, loadable f l ks -> text_ok (ks_name ks) ->
  exported_as (ks_type ks) (ks_purpose ks) = Some (pt, pp) ->
  exists g, exec (PubKeyCmd (Some l) (Some l)) f = (g, Ok tt) /\
    (forall n s k, ring_of ks n = Some (s, k) -> exists x pub, file g l (key_file n) = Some x /\ ReadKey pt x = Ok pub /\ public_key k = Ok pub) /\
    forall c cr, In c [Crypter; Signer; UnversionedSigner] -> exec (open_files c l cr) g = (g, Raise KeyczarError).
Proof.
  intros l f ks pt pp HL HN EX. pose proof (loadable_open _ _ _ HL) as HO. pose proof (opened_dir f l None ks _ HO) as HD.
  pose proof (made_open _ _ _ HO) as M.
  destruct (C45_pubkey_command l l f ks pt pp HL HN HD EX) as (g & E & _). exists g. split; [exact E|].
  destruct (C45_public_export ks l f pt pp M HN HD EX) as (g2 & E2 & _ & HC).
  assert (g2 = g) as ->.
  { unfold PubKeyCmd in E. rewrite exec_bind, exec_generic, HD in E. cbn [disk_reader] in E. rewrite HO in E. congruence. }
  assert (HG : In pp (accepts GenericKeyczar)) by (cbn; destruct pp; tauto).
  destruct (HC GenericKeyczar HG) as (ks' & O1 & _ & P & T & _ & R & _).
  rewrite exec_open in O1. apply pair_inj in O1 as [_ O1]. split.
  - intros n s k HR. destruct (R n s k HR) as (pub & P1 & P2 & _). destruct (opened_files _ l g ks' n s pub O1 P2) as (x & F & RK & _).
    rewrite T in RK. exists x, pub. split; [exact F|]. split; [exact RK | exact P1].
  - intros c cr HI. rewrite exec_open. f_equal. apply open_ok in O1 as (s & m & ls & EM & ER & _ & _ & _ & _ & EP & _).
    cbn [disk_reader file_reader rd_meta] in EM. assert (EP' : m_purpose m = pp) by congruence.
    assert (NI : ~ In pp (accepts c)).
    { unfold exported_as in EX. destruct (ks_type ks), (ks_purpose ks); try discriminate; apply Some_inj, pair_inj in EX as [_ <-];
        destruct HI as [<-|[<-|[<-|[]]]]; cbn; intuition discriminate. }
    destruct cr as [cr|]; cbn [disk_reader]; unfold EncryptedReader, file_reader; cbn [rd_meta]; rewrite EM;
      apply (C33_refused_before_reading_keys c s m _ ER); left; rewrite EP'; exact NI.
Qed.
Print Assumptions C65_same_location_refuted.

Example C65_case : loadable dsa_disk (bs "/dsa") dsa_set /\ text_ok (ks_name dsa_set) /\
  exported_as (ks_type dsa_set) (ks_purpose dsa_set) = Some (DSA_PUB, VERIFY) /\ (exists k, ring_of dsa_set 1 = Some (PRIMARY, k)) /\
  snd (exec (open_files Signer (bs "/dsa") None) dsa_disk) = Ok dsa_set.
Proof.
  split; [vm_compute; reflexivity|]. split; [apply (tx_ok "Test")|]. split; [reflexivity|]. split; [eexists; vm_compute; reflexivity|]. vm_compute. reflexivity.
Qed.

(** ** C66 *)

(** *** Plain sets are not taken for encrypted ones *)

(** The first character of [t] that belongs to the Base64 alphabet is [c]. *)
Definition first_letter (t : str) (c : byte) : Prop :=
  exists before rest, t = before ++ c :: rest /\ alphabet_char c = true /\ Forall (fun b => alphabet_char b = false) before.

Lemma alphabet_val c : alphabet_char c = true -> c <> "A"%byte -> beqb (of_urlsafe c) "="%byte = false /\ exists v, b64_val (of_urlsafe c) = Some v /\ 1 <= v < 64.
Proof.
  intros HA NA. pose (P := fun c => negb (alphabet_char c) || beqb c "A"%byte ||
    (negb (beqb (of_urlsafe c) "="%byte) && match b64_val (of_urlsafe c) with Some v => (1 <=? v) && (v <? 64) | None => false end)).
  assert (E : P c = true) by (apply forall_bytes; vm_compute; reflexivity). unfold P in E. rewrite HA in E. cbn [negb orb] in E.
  destruct (beqb c "A"%byte) eqn:EA; [apply beqb_eq in EA; contradiction|]. cbn [orb] in E. apply andb_true_iff in E as [E1 E2]. apply negb_true_iff in E1. split; [exact E1|].
  destruct (b64_val (of_urlsafe c)) as [v|]; [|discriminate]. exists v. split; [reflexivity | lia].
Qed.
Lemma foreign_val c : alphabet_char c = false -> beqb (of_urlsafe c) "="%byte = true \/ b64_val (of_urlsafe c) = None.
Proof.
  intros HA. pose (P := fun c => alphabet_char c || beqb (of_urlsafe c) "="%byte || match b64_val (of_urlsafe c) with Some _ => false | None => true end).
  assert (E : P c = true) by (apply forall_bytes; vm_compute; reflexivity). unfold P in E. rewrite HA in E. cbn [orb] in E.
  destruct (beqb (of_urlsafe c) "="%byte); [left; reflexivity|]. right. destruct (b64_val (of_urlsafe c)); [discriminate | reflexivity].
Qed.

Lemma a2b_second v : 1 <= v < 64 -> forall s d, a2b_loop s 1 6 v = Ok d -> d = [] \/ exists b r, d = b :: r /\ b <> x00.
Proof.
  intros Hv. induction s as [|c s IH]; intros d H; cbn [a2b_loop] in H; [discriminate|].
  destruct (beqb c "="%byte) eqn:EP; [apply IH, H|]. destruct (b64_val c) as [w|] eqn:EV; [|apply IH, H].
  pose proof (b64_val_in64 _ _ EV) as Hw. unfold in64 in Hw. cbv zeta in H. change (8 <=? 6 + 6) with true in H. cbv iota in H. apply bind_Ok in H as (r & _ & H). apply Ok_inj in H as <-.
  right. eexists _, r. split; [reflexivity|]. intros C. apply (f_equal ord) in C. change (ord x00) with 0 in C. change (2 ^ (6 + 6 - 8)) with 16 in C.
  assert (B : 0 < (v * 64 + w) / 16 < 256) by (split; [apply Z.div_str_pos; lia | apply Z.div_lt_upper_bound; lia]).
  rewrite ord_chr in C by lia. lia.
Qed.

Lemma a2b_first s c rest : Forall (fun b => beqb (of_urlsafe b) "="%byte = true \/ b64_val (of_urlsafe b) = None) s ->
  beqb (of_urlsafe c) "="%byte = false -> (exists v, b64_val (of_urlsafe c) = Some v /\ 1 <= v < 64) ->
  forall d, a2b_loop (map of_urlsafe (s ++ c :: rest)) 0 0 0 = Ok d -> d = [] \/ exists b r, d = b :: r /\ b <> x00.
Proof.
  intros HS HP (v & EV & Hv). induction HS as [|b s Hb HS IH]; intros d H; cbn [app map a2b_loop] in H.
  - rewrite HP, EV in H. cbv zeta in H. change (8 <=? 0 + 6) with false in H. cbv iota in H. change ((0 + 1) mod 4) with 1 in H. change (0 + 6) with 6 in H. change (0 * 64 + v) with v in H.
    apply (a2b_second v Hv _ d H).
  - destruct (beqb (of_urlsafe b) "="%byte) eqn:EB; [apply IH, H|]. destruct Hb as [Hb|Hb]; [discriminate|]. rewrite Hb in H. apply IH, H.
Qed.

Lemma decode_first t c : first_letter t c -> c <> "A"%byte -> forall d, Base64WSDecode t = Ok d -> d = [] \/ exists b r, d = b :: r /\ b <> x00.
Proof.
  intros (pre & rest & -> & HA & HP) NA d H. unfold Base64WSDecode in H.
  destruct (alphabet_val c HA NA) as (E1 & E2).
  assert (NE : negb (is_eol c) = true /\ negb (is_space c) = true).
  { pose (P := fun c => negb (alphabet_char c) || (negb (is_eol c) && negb (is_space c))). assert (E : P c = true) by (apply forall_bytes; vm_compute; reflexivity).
    unfold P in E. rewrite HA in E. cbn [negb orb] in E. apply andb_true_iff in E. exact E. }
  rewrite !filter_app in H. cbn [filter] in H. rewrite (proj1 NE) in H. cbn [filter] in H. rewrite (proj2 NE) in H.
  set (pre' := filter _ (filter _ pre)) in H. set (rest' := filter _ (filter _ rest)) in H.
  assert (HP' : Forall (fun b => beqb (of_urlsafe b) "="%byte = true \/ b64_val (of_urlsafe b) = None) pre').
  { apply Forall_forall. intros b Hb. apply filter_In in Hb as [Hb _]. apply filter_In in Hb as [Hb _]. apply foreign_val. apply (proj1 (Forall_forall _ _) HP b Hb). }
  unfold decode_stripped in H. cbv zeta in H. destruct (_ =? 1); [discriminate|]. unfold a2b_base64 in H.
  destruct (_ =? 2); [|destruct (_ =? 3)]; [rewrite <- app_assoc in H; cbn [app] in H | rewrite <- app_assoc in H; cbn [app] in H|];
    match type of H with match ?x with _ => _ end = _ => destruct x as [d'|[]] eqn:ED; try discriminate; apply Ok_inj in H as <-; apply (a2b_first _ c _ HP' E1 E2 _ ED) end.
Qed.

(** A text whose first letter is not A is never decrypted. *)
Lemma not_decrypted cr t c : first_letter t c -> c <> "A"%byte -> exists e, Decrypt cr t b64_decoder = Raise e.
Proof.
  intros HF NA. unfold Decrypt. cbn [apply_codec b64_decoder]. destruct (Base64WSDecode t) as [d|e] eqn:E; cbn [bind]; [|eexists; reflexivity].
  destruct (len d <? HEADER_SIZE) eqn:EL; [eexists; reflexivity|]. destruct (decode_first t c HF NA d E) as [->|(b & r & -> & NB)]; [discriminate EL|].
  assert (EI : exists r', slice_to (b :: r) HEADER_SIZE = b :: r') by (rewrite slice_to_firstn by discriminate; eexists; reflexivity). destruct EI as (r' & ->).
  unfold ParseHeader. change (index (b :: r') 0) with (Ok b). cbn [bind]. destruct (ord b =? VERSION) eqn:EV; [|cbn [negb bind]; eexists; reflexivity].
  exfalso. apply NB, ord_inj. apply Z.eqb_eq in EV. exact EV.
Qed.

(** The key files as they are written begin with the name of a member. *)
Lemma member_letter name (v : json) m c t : bs name = c :: t -> (alphabet_char c && negb (beqb c "A"%byte) && beqb (chr (ord c)) c = true) ->
  (exists u, dump_string (tx name) = [x22] ++ c :: u) ->
  exists c0, first_letter (dumps (jobj ((name, v) :: m))) c0 /\ c0 <> "A"%byte.
Proof.
  intros _ H (u & E). apply andb_true_iff in H as [H _]. apply andb_true_iff in H as [HA HN]. apply negb_true_iff in HN.
  exists c. split; [|intros ->; discriminate HN]. eexists ["{"; x22]%byte, _. split; [|split; [exact HA | repeat constructor]].
  unfold jobj. cbn [map fst snd dumps sep app]. rewrite E. reflexivity.
Qed.
Lemma key_text_letter k : exists c, first_letter (dumps (key_json k)) c /\ c <> "A"%byte.
Proof.
  destruct k; cbn [key_json]; unfold aes_json, hmac_json, dsapriv_json, dsapub_json, rsapriv_json, rsapub_json;
    (eapply member_letter; [reflexivity | vm_compute; reflexivity | eexists; vm_compute; reflexivity]).
Qed.

Lemma same_mvers f l cr cr' c c' ks ks' : open_keyset c (disk_reader f l cr) = Ok ks -> open_keyset c' (disk_reader f l cr') = Ok ks' -> ks_mvers ks' = ks_mvers ks.
Proof.
  intros H H'. apply open_ok in H as (s & m & ls & EM & ER & _ & _ & _ & _ & _ & _ & _ & _ & EV & _). apply open_ok in H' as (s' & m' & ls' & EM' & ER' & _ & _ & _ & _ & _ & _ & _ & _ & EV' & _).
  assert (A : forall o, rd_meta (disk_reader f l o) = answer (file f l meta_file)) by (intros []; reflexivity). rewrite A in EM, EM'.
  assert (s' = s) as -> by congruence. assert (m' = m) as -> by congruence. congruence.
Qed.

(** A plain set whose keys are written as JSON cannot be opened with crypting keys, whatever these
    are, and [addkey] with crypting keys then changes nothing. *)
Theorem C66_plain_sets_refuse_the_crypter : forall f l ks n s k x c, loadable f l ks -> ring_of ks n = Some (s, k) ->
  file f l (key_file n) = Some x -> first_letter x c -> c <> "A"%byte ->
  forall cr, (forall cl, exists e, exec (open_files cl l (Some cr)) f = (f, Raise e)) /\
    forall st size ds es, exists e, exec (AddKeyCmd (Some l) st (Some cr) size ds es) f = (f, Raise e).
Proof.
  intros f l ks n s k x c HL HR HF FL NA cr. pose proof (loadable_open _ _ _ HL) as HO.
  assert (G : forall cl, exists e, open_keyset cl (disk_reader f l (Some cr)) = Raise e).
  { intros cl. destruct (open_keyset cl (disk_reader f l (Some cr))) as [ks2|e] eqn:E2; [|exists e; reflexivity]. exfalso.
    destruct (ring_entry ks n s k (inv_open _ _ _ HO) HR) as (o & A & _). apply (assoc_In Z.eqb_eq) in A.
    rewrite <- (same_mvers f l None (Some cr) _ _ ks ks2 HO E2) in A. destruct (opened_meta _ _ _ E2 n o A) as (y & D2).
    cbn [disk_reader EncryptedReader file_reader rd_key] in D2. rewrite HF in D2. cbn [answer bind] in D2.
    destruct (not_decrypted cr x c FL NA) as (e & C). congruence. }
  split; [intros cl; destruct (G cl) as (e & E); exists e; rewrite exec_open, E; reflexivity|].
  intros st size ds es. destruct (G GenericKeyczar) as (e & E). exists e. unfold AddKeyCmd.
  rewrite exec_bind, exec_generic, (opened_dir f l None ks _ HO), E. reflexivity.
Qed.
Print Assumptions C66_plain_sets_refuse_the_crypter.

(** *** Histories *)

(** Crypting keys that always encrypt, and decrypt what they encrypted: AES sets with a primary
    key. *)
Definition able (cr : keyset) : Prop := reached cr /\ ids_distinct cr /\ ks_type cr = AES /\
  exists n k kb hb, ring_of cr n = Some (PRIMARY, KAes k) /\ aes_material k kb hb /\ aes_size_ok kb.

(** The state of a location: all keys plain and the metadata says so, and if there is a key then no
    crypting keys open the set; or all keys ciphertext made by one set of crypting keys, with which
    the set opens, and the metadata says so. *)
Definition all_plain (f : disk) (l : str) (name : text) (p : purpose) (t : ktype) : Prop :=
  exists ks, loadable f l ks /\ ks_encrypted ks = false /\ ks_name ks = name /\ ks_purpose ks = p /\ ks_type ks = t /\
    forall n s k, ring_of ks n = Some (s, k) ->
      (exists x, file f l (key_file n) = Some x /\ ReadKey t x = Ok k) /\
      forall cl cr, exists e, exec (open_files cl l (Some cr)) f = (f, Raise e).
Definition all_encrypted (f : disk) (l : str) (name : text) (p : purpose) (t : ktype) : Prop :=
  exists cr ks, able cr /\ exec (open_files GenericKeyczar l (Some cr)) f = (f, Ok ks) /\
    ks_encrypted ks = true /\ ks_name ks = name /\ ks_purpose ks = p /\ ks_type ks = t /\
    forall n s k, ring_of ks n = Some (s, k) -> exists plain ct, key_str k = Ok plain /\ ciphertext_of cr plain ct /\ file f l (key_file n) = Some ct.

(** Commands, now also [addkey] with crypting keys. *)
Inductive ecmd := Plain (c : kcmd) | AddEncrypted (cr : keyset) (s : status) (size : Z) (ds : list draw).
Definition ecmd_prog (l : str) (x : ecmd) (es : nat -> env) : prog unit :=
  match x with
  | Plain c => kcmd_prog l c es
  | AddEncrypted cr s size ds => AddKeyCmd (Some l) s (Some cr) size ds es
  end.
Definition ecmd_ok (x : ecmd) : Prop :=
  match x with Plain c => kcmd_ok c | AddEncrypted cr s size ds => able cr /\ draws_ok (OpAdd ds s None) end.
Fixpoint exec_every (l : str) (cs : list (ecmd * (nat -> env))) (f : disk) : disk :=
  match cs with [] => f | (c, es) :: cs' => exec_every l cs' (fst (exec (ecmd_prog l c es) f)) end.

(** What the commands write. *)
Lemma command_writes l f ks c es g : loadable f l ks -> kcmd_ok c -> exec (kcmd_prog l c es) f = (g, Ok tt) ->
  exists ks1 g1, made ks1 /\ ks_name ks1 = ks_name ks /\ exec (WriteSet ks1 l None es) f = (g1, Ok tt) /\ (g = g1 \/ exists n, g = del_file g1 l (key_file n)).
Proof.
  intros HL HC HX. pose proof (loadable_open _ _ _ HL) as HO. pose proof (made_open _ _ _ HO) as M. pose proof (made_inv ks M) as I.
  assert (NM : forall o ks1 r, draws_ok o -> step ks o = (ks1, r) -> made ks1 /\ ks_name ks1 = ks_name ks).
  { intros o ks1 r Ho ES. assert (E : fst (step ks o) = ks1) by (rewrite ES; reflexivity). destruct (name_step ks o I) as (A & _). rewrite E in A.
    split; [rewrite <- E, step_run; apply made_run; [exact M | repeat constructor; exact Ho] | exact A]. }
  destruct c as [s size ds|n|n|n]; cbn [kcmd_prog] in HX.
  - rewrite (exec_add l None s size ds es f ks HO) in HX. destruct (AddVersion ks ds s _) as [ks1 [[]|e]] eqn:EA; [|apply pair_inj in HX as [_ HX]; discriminate].
    destruct (NM (OpAdd ds s (if size =? -1 then None else Some size)) ks1 (Ok tt) HC EA) as [M1 N1].
    exists ks1, g. repeat (split; [assumption|]). left. reflexivity.
  - unfold PromoteCmd in HX. rewrite (exec_change _ _ _ _ _ _ HL) in HX. destruct (n <? 0); [apply pair_inj in HX as [_ HX]; discriminate|].
    destruct (Promote ks n) as [ks1 [[]|e]] eqn:EA; [|apply pair_inj in HX as [_ HX]; discriminate].
    destruct (NM (OpPromote n) ks1 (Ok tt) Logic.I EA) as [M1 N1]. exists ks1, g. repeat (split; [assumption|]). left. reflexivity.
  - unfold DemoteCmd in HX. rewrite (exec_change _ _ _ _ _ _ HL) in HX. destruct (n <? 0); [apply pair_inj in HX as [_ HX]; discriminate|].
    destruct (Demote ks n) as [ks1 [[]|e]] eqn:EA; [|apply pair_inj in HX as [_ HX]; discriminate].
    destruct (NM (OpDemote n) ks1 (Ok tt) Logic.I EA) as [M1 N1]. exists ks1, g. repeat (split; [assumption|]). left. reflexivity.
  - unfold RevokeCmd in HX. rewrite exec_bind, (exec_change _ _ _ _ _ _ HL) in HX. destruct (n <? 0); [apply pair_inj in HX as [_ HX]; discriminate|].
    destruct (Revoke ks n) as [ks1 [[]|e]] eqn:EA; [|apply pair_inj in HX as [_ HX]; discriminate].
    destruct (NM (OpRevoke n) ks1 (Ok tt) Logic.I EA) as [M1 N1]. destruct (exec (WriteSet ks1 l None es) f) as [g1 [[]|e]] eqn:EW; [|apply pair_inj in HX as [_ HX]; discriminate].
    exists ks1, g1. repeat (split; [assumption|]). unfold CreateWriter, first_accepting, FileWriter_CreateWriter in HX. cbn [pbind exec] in HX.
    destruct (has_dir g1 l); cbn [pbind exec RemoveKey] in HX; [|apply pair_inj in HX as [_ HX]; discriminate].
    destruct (file g1 l (key_file n)); [|apply pair_inj in HX as [_ HX]; discriminate]. apply pair_inj in HX as [<- _]. right. exists n. reflexivity.
Qed.

Lemma command_text l f ks c es g ks' : loadable f l ks -> text_ok (ks_name ks) -> kcmd_ok c -> exec (kcmd_prog l c es) f = (g, Ok tt) -> loadable g l ks' ->
  forall n s k, ring_of ks' n = Some (s, k) -> exists k1, file g l (key_file n) = Some (dumps (key_json k1)).
Proof.
  intros HL HN HC HX HL' n s k HR. destruct (command_writes l f ks c es g HL HC HX) as (ks1 & g1 & M & N & HW & HG).
  pose proof (loadable_open _ _ _ HL') as HO. pose proof (WriteSet_on_disk _ _ _ _ _ _ (made_inv _ M) HW) as [D1 D2].
  assert (HN1 : text_ok (ks_name ks1)) by (rewrite N; exact HN).
  destruct (stored_again ks1 l None None es f g1 M HN1 Logic.I HW) as (_ & _ & ks2 & S3 & _).
  assert (F : forall x, file g l (key_file n) = Some x -> file g1 l (key_file n) = Some x).
  { intros x. destruct HG as [->|(m & ->)]; [tauto|]. rewrite file_del, str_eqb_refl. cbn [andb]. destruct (str_eqb (key_file m) (key_file n)); [discriminate | tauto]. }
  assert (FM : file g l meta_file = file g1 l meta_file).
  { destruct HG as [->|(m & ->)]; [reflexivity|]. rewrite file_del, str_eqb_refl, key_meta_eqb. reflexivity. }
  destruct (opened_files _ l g ks' n s k HO HR) as (x & FX & _ & _).
  destruct (ring_entry ks' n s k (inv_open _ _ _ HO) HR) as (o & A & _). apply (assoc_In Z.eqb_eq) in A.
  pose proof HO as O1. apply open_ok in O1 as (s1 & m1 & l1 & A1 & B1 & _ & _ & _ & _ & _ & _ & _ & _ & V1 & _).
  rewrite V1 in A.
  cbn [file_reader rd_meta] in A1. rewrite FM, D1 in A1. cbn [answer] in A1. apply Ok_inj in A1 as <-.
  assert (RT : meta_Read (dumps (meta_json (ks_meta (written ks1 None)) (map version_json (meta_versions (ks_meta ks1))))) = Ok (ks_meta (written ks1 None))).
  { change (meta_versions (ks_meta ks1)) with (meta_versions (ks_meta (written ks1 None))).
    apply meta_rt; [apply ks_meta_wf; destruct (made_inv _ M); split; assumption | exact HN1 | apply meta_str_eq]. }
  rewrite RT in B1. apply Ok_inj in B1 as <-.
  assert (IN : In n (map fst (ks_mvers ks1))).
  { assert (IN : In n (map fst (m_versions (ks_meta (written ks1 None))))) by (apply in_combine_l in A; exact A).
    cbn [ks_meta m_versions written set_encrypted] in IN. rewrite map_map in IN. exact IN. }
  apply in_map_iff in IN as ([n1 o1] & E1 & IN). cbn [fst] in E1. subst n1.
  destruct (ring_known ks1 n o1 (made_inv _ M) (assoc_NoDup Z.eqb_eq (inv_mkeys ks1 (made_inv _ M)) IN)) as (k1 & HK & _).
  apply (assoc_In Nat.eqb_eq) in HK. destruct (D2 n o1 k1 IN HK) as (e & y & ES & FY). exists k1. rewrite FX. f_equal. apply F in FX. assert (y = x) as -> by congruence.
  unfold stored in ES. rewrite key_str_eq in ES by (apply (proj1 (Forall_forall _ _) (made_wf _ M) (o1, k1) HK)). cbn [bind] in ES. apply Ok_inj in ES. symmetry. exact ES.
Qed.

Lemma loadable_plain f l ks : loadable f l ks -> (forall n s k, ring_of ks n = Some (s, k) -> exists k1, file f l (key_file n) = Some (dumps (key_json k1))) ->
  all_plain f l (ks_name ks) (ks_purpose ks) (ks_type ks).
Proof.
  intros L T. pose proof (loadable_open _ _ _ L) as HO. exists ks. split; [exact L|]. split.
  - destruct (C33_opened_sets_have_the_purpose _ _ _ [] HO) as [_ A]. cbn [run fold_left] in A. destruct (ks_encrypted ks); [|reflexivity]. discriminate (A eq_refl).
  - repeat (split; [reflexivity|]). intros n s k HR. split; [destruct (opened_files _ l f ks n s k HO HR) as (x & F & RK & _); exists x; split; assumption|].
    destruct (T n s k HR) as (k1 & F). destruct (key_text_letter k1) as (c & FL & NA). intros cl cr.
    apply (proj1 (C66_plain_sets_refuse_the_crypter f l ks n s k _ c L HR F FL NA cr)).
Qed.

Lemma encrypted_meta f l cr ks : exec (open_files GenericKeyczar l (Some cr)) f = (f, Ok ks) -> ks_encrypted ks = true ->
  exists s m, has_dir f l = true /\ file f l meta_file = Some s /\ meta_Read s = Ok m /\ m_encrypted m = true.
Proof.
  intros H HE. rewrite exec_open in H. apply pair_inj in H as [_ H]. pose proof (opened_dir _ _ _ _ _ H) as HD.
  apply open_ok in H as (s & m & ls & EM & ER & _ & _ & _ & _ & _ & _ & EE & _).
  cbn [disk_reader EncryptedReader file_reader rd_meta] in EM. exists s, m. split; [exact HD|].
  destruct (file f l meta_file) as [s'|]; [|discriminate]. cbn [answer] in EM. apply Ok_inj in EM as ->. split; [reflexivity|]. split; [exact ER | congruence].
Qed.

Lemma add_encrypted_step l cr s size ds es f name p t : able cr -> draws_ok (OpAdd ds s None) -> text_ok name ->
  (forall ks, exec (open_files GenericKeyczar l (Some cr)) f = (f, Ok ks) -> ks_name ks = name /\ ks_purpose ks = p /\ ks_type ks = t) ->
  forall g r, exec (AddKeyCmd (Some l) s (Some cr) size ds es) f = (g, r) ->
  (r = Ok tt /\ all_encrypted g l name p t) \/ ((exists e, r = Raise e) /\ g = f).
Proof.
  intros AB HD HN HM g r HX. pose proof AB as (RC & DC & TC & n & k & kb & hb & PC & MC & SC).
  assert (E : exec (CreateGenericKeyczar (Some l) (Some cr)) f = if has_dir f l then (f, open_keyset GenericKeyczar (disk_reader f l (Some cr))) else (f, Raise KeyczarError)) by apply exec_generic.
  assert (OP : exec (open_files GenericKeyczar l (Some cr)) f = (f, open_keyset GenericKeyczar (disk_reader f l (Some cr)))) by apply exec_open.
  destruct (open_keyset GenericKeyczar (disk_reader f l (Some cr))) as [ks|e] eqn:EO.
  - destruct (HM ks OP) as (N1 & N2 & N3). assert (HNk : text_ok (ks_name ks)) by (rewrite N1; exact HN).
    pose proof HX as HX2. rewrite (exec_add l (Some cr) s size ds es f ks EO) in HX2.
    destruct (C47_addkey_encrypted l f ks cr n k kb hb s size ds es g r RC DC TC PC MC SC OP HNk HD HX) as [(-> & (ks' & r' & O2 & E2 & A1 & A2 & A3 & _ & RR) & _)|(ER & -> & _)];
      [|right; split; [exact ER | reflexivity]].
    left. split; [reflexivity|]. exists cr, ks'. split; [exact AB|]. split; [exact O2|]. split; [exact E2|]. split; [congruence|]. split; [congruence|]. split; [congruence|].
    set (o := OpAdd ds s (if size =? -1 then None else Some size)).
    destruct (AddVersion ks ds s _) as [ks1 [[]|e]] eqn:EA; [|apply pair_inj in HX2 as [_ HX2]; discriminate].
    pose proof (made_open _ _ _ EO) as M. pose proof (made_inv _ M) as I.
    assert (ES : fst (step ks o) = ks1) by (cbn [step o]; rewrite EA; reflexivity).
    assert (M1 : made ks1) by (rewrite <- ES, step_run; apply made_run; [exact M | repeat constructor; exact HD]).
    destruct (name_step ks o I) as (B1 & _). rewrite ES in B1. assert (HN1 : text_ok (ks_name ks1)) by (rewrite B1; exact HNk).
    destruct (C44_encrypted_sets ks1 l cr es f g M1 HN1 HX2) as (HF & _).
    assert (RB : reads_back (Some cr) (Some cr)) by (intros e0 s0 ct; apply C43_aes_sets_decrypt_what_they_encrypt; assumption).
    destruct (stored_again ks1 l (Some cr) (Some cr) es f g M1 HN1 RB HX2) as (_ & _ & ks2 & S3 & (_ & _ & _ & _ & E5 & _) & _).
    rewrite exec_open, S3 in O2. apply pair_inj in O2 as [_ O2]. apply Ok_inj in O2 as <-.
    intros n0 s0 k0 HR. rewrite E5 in HR. apply (HF n0 s0 k0 HR).
  - right. unfold AddKeyCmd in HX. rewrite exec_bind, E in HX. destruct (has_dir f l); apply pair_inj in HX as [<- <-]; (split; [eexists; reflexivity | reflexivity]).
Qed.

(** The metadata that two readers of one location see is the same. *)
Lemma same_meta f l cr cr' ks ks' : open_keyset GenericKeyczar (disk_reader f l cr) = Ok ks -> open_keyset GenericKeyczar (disk_reader f l cr') = Ok ks' ->
  ks_name ks' = ks_name ks /\ ks_purpose ks' = ks_purpose ks /\ ks_type ks' = ks_type ks.
Proof.
  intros H H'. apply open_ok in H as (s & m & ls & EM & ER & _ & _ & _ & EN & EP & ET & _). apply open_ok in H' as (s' & m' & ls' & EM' & ER' & _ & _ & _ & EN' & EP' & ET' & _).
  assert (A : forall o, rd_meta (disk_reader f l o) = answer (file f l meta_file)) by (intros []; reflexivity). rewrite A in EM, EM'.
  assert (s' = s) as -> by congruence. assert (m' = m) as -> by congruence. repeat split; congruence.
Qed.

(** In every history of commands, each with or without crypting keys, failing or not, the set is
    never half encrypted. *)
Theorem C66_never_half_encrypted : forall f l name p a t cs, has_dir f l = true -> file f l meta_file = None -> text_ok name -> implied p a t ->
  Forall (fun x => ecmd_ok (fst x)) cs ->
  exists f0, exec (Create (Some l) name (Some p) a) f = (f0, Ok tt) /\
    let g := exec_every l cs f0 in all_plain g l name p t \/ all_encrypted g l name p t.
Proof.
  intros f l name p a t cs HD HF HN HI HC. destruct (C46_create_fresh f l name p a t HD HF HN HI) as (f0 & s & E & EF & ks & L & N1 & N2 & N3 & _ & _ & RE).
  exists f0. split; [exact E|]. cbv zeta.
  assert (S0 : all_plain f0 l name p t \/ all_encrypted f0 l name p t).
  { left. rewrite <- N1, <- N2, <- N3. apply (loadable_plain f0 l ks L). intros n s0 k HR. rewrite RE in HR. discriminate HR. }
  clear - HC HN S0. revert f0 S0. induction cs as [|[c es] cs IH]; intros f0 S0; cbn [exec_every]; [exact S0|].
  apply (IH (Forall_inv_tail HC)). pose proof (Forall_inv HC) as OK. cbn [fst] in OK. destruct (exec (ecmd_prog l c es) f0) as [g r] eqn:EX. cbn [fst].
  destruct c as [c|cr s size ds]; cbn [ecmd_prog ecmd_ok] in *.
  - destruct S0 as [S0|(cr & ks & A & O & EN & N1 & N2 & N3 & F)].
    + pose proof S0 as (ks & L & _ & N1 & N2 & N3 & _). assert (HNk : text_ok (ks_name ks)) by (rewrite N1; exact HN). left.
      destruct (C47_command l f0 ks c es g r L HNk OK EX) as [(-> & (ks1 & r1 & L1 & A1 & A2 & A3 & _) & _)|(_ & -> & _)]; [|exact S0].
      rewrite <- N1, <- N2, <- N3, <- A1, <- A2, <- A3. apply (loadable_plain g l ks1 L1). apply (command_text l f0 ks c es g ks1 L HNk OK EX L1).
    + destruct (encrypted_meta _ _ _ _ O EN) as (s & m & H1 & H2 & H3 & H4). rewrite (C47_encrypted_sets_refuse_changes l f0 s m c es H1 H2 H3 H4) in EX.
      apply pair_inj in EX as [<- _]. right. exists cr, ks. repeat (split; [assumption|]). exact F.
  - destruct OK as [AB HDr].
    assert (HM : forall ks, exec (open_files GenericKeyczar l (Some cr)) f0 = (f0, Ok ks) -> ks_name ks = name /\ ks_purpose ks = p /\ ks_type ks = t).
    { intros ks O. rewrite exec_open in O. apply pair_inj in O as [_ O].
      destruct S0 as [(ks0 & L & _ & N1 & N2 & N3 & _)|(cr0 & ks0 & _ & O0 & _ & N1 & N2 & N3 & _)].
      - apply loadable_open in L. destruct (same_meta f0 l None (Some cr) ks0 ks L O) as (A1 & A2 & A3). repeat split; congruence.
      - rewrite exec_open in O0. apply pair_inj in O0 as [_ O0]. destruct (same_meta f0 l (Some cr0) (Some cr) ks0 ks O0 O) as (A1 & A2 & A3). repeat split; congruence. }
    destruct (add_encrypted_step l cr s size ds es f0 name p t AB HDr HN HM g r EX) as [(_ & A)|(_ & ->)]; [right; exact A | exact S0].
Qed.
Print Assumptions C66_never_half_encrypted.

(** Without the crypting keys nothing can be done to an encrypted set, and nothing changes. *)
Theorem C66_encrypted_sets_need_the_crypter : forall f l name p t, all_encrypted f l name p t ->
  (forall c es, exec (kcmd_prog l c es) f = (f, Raise KeyczarError)) /\
  (forall dest, exec (PubKeyCmd (Some l) (Some dest)) f = (f, Raise KeyczarError)) /\
  forall c, exec (open_files c l None) f = (f, Raise KeyczarError).
Proof.
  intros f l name p t (cr & ks & A & O & EN & N1 & N2 & N3 & F). destruct (encrypted_meta _ _ _ _ O EN) as (s & m & H1 & H2 & H3 & H4).
  assert (G : forall c, open_keyset c (disk_reader f l None) = Raise KeyczarError).
  { intros c. cbn [disk_reader]. unfold file_reader. rewrite H2. cbn [answer]. apply (C33_refused_before_reading_keys c s m false H3). right. split; [exact H4 | reflexivity]. }
  split; [intros c es; apply (C47_encrypted_sets_refuse_changes l f s m c es H1 H2 H3 H4)|]. split.
  - intros dest. cbn [PubKeyCmd]. rewrite exec_bind, exec_generic, H1, G. reflexivity.
  - intros c. rewrite exec_open, G. reflexivity.
Qed.
Print Assumptions C66_encrypted_sets_need_the_crypter.


(** REFUTED with crypting keys that do not encrypt: if the first [addkey] of a set is made with crypting keys
    that have no primary key, then the command fails, but has already announced the new version.
    Afterwards nothing opens the set, with or without crypting keys. *)
Theorem C66_unable_crypter_refuted : forall f l ks cr s size ds es g0, loadable f l ks -> text_ok (ks_name ks) -> draws_ok (OpAdd ds s None) ->
  (forall n, file f l (key_file n) = None) -> reached cr -> (forall n k, ring_of cr n <> Some (PRIMARY, k)) ->
  exec (AddKeyCmd (Some l) s None size ds es) f = (g0, Ok tt) ->
  exists g e, exec (AddKeyCmd (Some l) s (Some cr) size ds es) f = (g, Raise e) /\
    forall c cr', exists e', exec (open_files c l cr') g = (g, Raise e').
Proof.
  intros f l ks cr s size ds es g0 HL HN HD NF RC NP HX. pose proof (loadable_open _ _ _ HL) as HO. pose proof (made_open _ _ _ HO) as M. pose proof (made_inv ks M) as I.
  assert (NE : forall e x, exists y, Encrypt e cr x b64_encoder = Raise y).
  { intros e x. unfold Encrypt. destruct (primary_key cr) as [k|y] eqn:E; cbn [bind]; [|exists y; reflexivity]. exfalso.
    destruct (proj1 (primary_key_spec cr k (reached_inv cr RC)) E) as (n & HR). apply (NP n k HR). }
  assert (NR : forall n, ring_of ks n = None).
  { intros n. destruct (ring_of ks n) as [[s0 k]|] eqn:E; [|reflexivity]. destruct (opened_files _ l f ks n s0 k HO E) as (x & F & _). rewrite NF in F. discriminate F. }
  assert (OC : exists ks1, open_keyset GenericKeyczar (disk_reader f l (Some cr)) = Ok ks1 /\ ks1 = ks).
  { exists ks. split; [|reflexivity]. destruct (open_ok _ _ _ HO) as (s1 & m1 & l1 & A1 & B1 & _ & _ & _ & _ & _ & _ & EE & _ & V1 & _).
    assert (EM : m_versions m1 = []).
    { destruct (m_versions m1) as [|[n v] vs] eqn:E; [reflexivity|]. exfalso. unfold meta_versions in V1. rewrite E in V1. cbn [map fst snd length seq combine] in V1.
      assert (IN : In (n, 0%nat) (ks_mvers ks)) by (rewrite V1; left; reflexivity).
      destruct (ring_known ks n 0%nat I (assoc_NoDup Z.eqb_eq (inv_mkeys ks I) IN)) as (k1 & _ & C). rewrite NR in C. discriminate C. }
    unfold open_keyset in HO |- *. cbn [disk_reader EncryptedReader rd_meta rd_encrypted]. rewrite A1 in HO |- *. cbn [bind] in HO |- *. rewrite B1 in HO |- *. cbn [bind] in HO |- *.
    unfold meta_versions in HO |- *. rewrite EM in HO |- *. cbn [map load_keys bind] in HO |- *.
    destruct (negb (IsAcceptablePurpose _ _)); [discriminate|]. rewrite andb_false_r. cbn [file_reader rd_encrypted negb] in HO. destruct (m_encrypted m1); [discriminate | exact HO]. }
  destruct OC as (ks1 & OC & ->).
  rewrite (exec_add l None s size ds es f ks HO) in HX. rewrite (exec_add l (Some cr) s size ds es f ks OC).
  destruct (AddVersion ks ds s _) as [ks1 [[]|e]] eqn:EA; [|apply pair_inj in HX as [_ HX]; discriminate].
  set (o := OpAdd ds s (if size =? -1 then None else Some size)). assert (ES : fst (step ks o) = ks1) by (cbn [step o]; rewrite EA; reflexivity).
  assert (M1 : made ks1) by (rewrite <- ES, step_run; apply made_run; [exact M | repeat constructor; exact HD]).
  destruct (name_step ks o I) as (N1 & _). rewrite ES in N1. assert (HN1 : text_ok (ks_name ks1)) by (rewrite N1; exact HN).
  assert (VN : exists n o1, In (n, o1) (ks_mvers ks1)).
  { destruct (add_loaded _ _ ks ds s size HO HD) as [(k2 & r' & EA' & RC' & RE)|(k2 & e & EA' & _)]; rewrite EA in EA'; [|discriminate EA'].
    apply pair_inj in EA' as [<- _]. clear ES. inversion RC' as [s0 size0 ds0 d n k H1 H2 H3 H4 H5| | |]; subst.
    assert (HR : ring_of ks1 n = Some (s, k)) by (rewrite RE; unfold ring_add; rewrite Z.eqb_refl; reflexivity).
    destruct (ring_entry ks1 n s k (made_inv _ M1) HR) as (o1 & A & _). exists n, o1. apply (assoc_In Z.eqb_eq A). }
  destruct VN as (n & o1 & VN). destruct (ring_known ks1 n o1 (made_inv _ M1) (assoc_NoDup Z.eqb_eq (inv_mkeys ks1 (made_inv _ M1)) VN)) as (k1 & HK & _). apply (assoc_In Nat.eqb_eq) in HK.
  destruct (exec (WriteSet ks1 l (Some cr) es) f) as [g r] eqn:EW. exists g. destruct r as [[]|e].
  { exfalso. destruct (proj2 (WriteSet_on_disk _ _ _ _ _ _ (made_inv _ M1) EW) n o1 k1 VN HK) as (e & y & SS & _). unfold stored in SS.
    apply bind_Ok in SS as (x & _ & SS). destruct (NE e x) as (z & C). congruence. }
  exists e. split; [reflexivity|]. intros c cr'. rewrite exec_open.
  destruct (open_keyset c (disk_reader g l cr')) as [ks2|e'] eqn:E2; [|exists e'; reflexivity]. exfalso.
  assert (FN : file g l (key_file n) = None).
  { rewrite <- (NF n). destruct (file g l (key_file n)) as [y|] eqn:FY; [|symmetry; apply NF]. exfalso.
    destruct (C44_only_ciphertext_is_written ks1 l cr es f g _ M1 EW l (key_file n)) as (_ & [C|(pl & ct & (e1 & C) & _)]).
    - rewrite NF, FY. discriminate.
    - apply (f_equal (str_eqb (key_file n))) in C. rewrite str_eqb_refl, key_meta_eqb in C. discriminate C.
    - destruct (NE e1 pl) as (z & C2). congruence. }
  destruct (WriteSet_spec _ _ _ _ _ _ _ (made_inv _ M1) EW) as (_ & S2 & _). specialize (S2 (opened_dir f l None ks _ HO)).
  pose proof E2 as O1. apply open_ok in O1 as (s1 & m1 & l1 & A1 & B1 & _ & _ & _ & _ & _ & _ & _ & _ & V1 & _).
  assert (A : rd_meta (disk_reader g l cr') = answer (file g l meta_file)) by (destruct cr'; reflexivity). rewrite A, S2 in A1. cbn [answer] in A1. apply Ok_inj in A1 as <-.
  assert (RT : meta_Read (dumps (meta_json (ks_meta (written ks1 (Some cr))) (map version_json (meta_versions (ks_meta ks1))))) = Ok (ks_meta (written ks1 (Some cr)))).
  { change (meta_versions (ks_meta ks1)) with (meta_versions (ks_meta (written ks1 (Some cr)))).
    apply meta_rt; [apply ks_meta_wf; destruct (made_inv _ M1); split; assumption | exact HN1 | apply meta_str_eq]. }
  rewrite RT in B1. apply Ok_inj in B1 as <-.
  assert (VN2 : exists o2, In (n, o2) (ks_mvers ks2)).
  { assert (IN : In n (map fst (ks_mvers ks2))).
    { rewrite V1, map_fst_combine; [|unfold meta_versions; rewrite seq_length, !map_length; reflexivity].
      cbn [ks_meta m_versions written set_encrypted]. rewrite map_map. apply (in_map fst) in VN. exact VN. }
    apply in_map_iff in IN as ([n2 o2] & E & IN). cbn [fst] in E. subst n2. exists o2. exact IN. }
  destruct VN2 as (o2 & VN2). destruct (opened_meta _ _ _ E2 n o2 VN2) as (y & RK).
  destruct cr' as [cr'|]; cbn [disk_reader EncryptedReader file_reader rd_key] in RK; rewrite FN in RK; discriminate RK.
Qed.
Print Assumptions C66_unable_crypter_refuted.

(** A history that ends encrypted, one that ends plain, and crypting keys without a primary key. *)
Example C66_case : able aes_set /\
  has_dir test_disk (bs "/new") = true /\ file test_disk (bs "/new") meta_file = None /\ implied SIGN_AND_VERIFY None HMAC_SHA1 /\
  (let cs := [(AddEncrypted aes_set PRIMARY (-1) [zero_draw x01], one_env); (Plain (CmdAddKey PRIMARY (-1) [zero_draw x02]), one_env)] in
   let cs' := [(Plain (CmdAddKey PRIMARY (-1) [zero_draw x02]), one_env); (AddEncrypted aes_set PRIMARY (-1) [zero_draw x01], one_env)] in
   Forall (fun x => ecmd_ok (fst x)) cs /\ Forall (fun x => ecmd_ok (fst x)) cs' /\
   exists f0 ks ks' k k', exec (Create (Some (bs "/new")) (text_of_str (bs "n")) (Some SIGN_AND_VERIFY) None) test_disk = (f0, Ok tt) /\
     snd (exec (open_files Signer (bs "/new") (Some aes_set)) (exec_every (bs "/new") cs f0)) = Ok ks /\ ring_of ks 1 = Some (PRIMARY, k) /\
     snd (exec (open_files Signer (bs "/new") None) (exec_every (bs "/new") cs' f0)) = Ok ks' /\ ring_of ks' 1 = Some (PRIMARY, k')) /\
  let cr := run aes_set [OpDemote 2] in
  reached cr /\ (forall n k, ring_of cr n <> Some (PRIMARY, k)) /\
  exists f0 ks g0, exec (Create (Some (bs "/new")) (text_of_str (bs "n")) (Some SIGN_AND_VERIFY) None) test_disk = (f0, Ok tt) /\
    loadable f0 (bs "/new") ks /\ (forall n, file f0 (bs "/new") (key_file n) = None) /\
    exec (AddKeyCmd (Some (bs "/new")) PRIMARY None (-1) [zero_draw x01] one_env) f0 = (g0, Ok tt).
Proof.
  assert (AB : able aes_set).
  { split; [exists Crypter; eexists _, _, []; split; [exact aes_set_opens | reflexivity]|].
    destruct C43_case as (_ & _ & _ & _ & ID & ET & k & kb & hb & A). split; [exact ID|]. split; [exact ET|]. exists 2, k, kb, hb. exact A. }
  split; [exact AB|]. split; [reflexivity|]. split; [reflexivity|]. split; [constructor|]. split.
  - cbv zeta. split; [constructor; [split; [exact AB | repeat constructor; cbn; lia]|]; constructor; [repeat constructor; cbn; lia | constructor]|].
    split; [constructor; [repeat constructor; cbn; lia|]; constructor; [split; [exact AB | repeat constructor; cbn; lia] | constructor]|].
    eexists _, _, _, _, _. split; [vm_compute; reflexivity|]. split; [vm_compute; reflexivity|]. split; [vm_compute; reflexivity|]. split; [vm_compute; reflexivity|]. vm_compute. reflexivity.
  - cbv zeta. assert (RE : reached (run aes_set [OpDemote 2])) by (exists Crypter; eexists _, _, [OpDemote 2]; split; [exact aes_set_opens | reflexivity]).
    split; [exact RE|]. split.
    + intros n k C. assert (P : primary_key (run aes_set [OpDemote 2]) = Ok k) by (apply (primary_key_spec _ _ (reached_inv _ RE)); exists n; exact C). vm_compute in P. discriminate P.
    + destruct (C46_create_fresh test_disk (bs "/new") (text_of_str (bs "n")) SIGN_AND_VERIFY None HMAC_SHA1 eq_refl eq_refl (tx_ok "n") ImpHmac) as (f0 & x & E & F & ks & O & _).
      exists f0, ks. assert (G : exists g0, exec (AddKeyCmd (Some (bs "/new")) PRIMARY None (-1) [zero_draw x01] one_env) (fst (exec (Create (Some (bs "/new")) (text_of_str (bs "n")) (Some SIGN_AND_VERIFY) None) test_disk)) = (g0, Ok tt)) by (eexists; vm_compute; reflexivity).
      rewrite E in G. destruct G as (g0 & G). exists g0. split; [exact E|]. split; [exact O|]. split; [|exact G].
      intros n. rewrite F, str_eqb_refl. cbn [andb]. rewrite (str_eqb_neq meta_file (key_file n)); [reflexivity|].
      intros C. pose proof (key_meta_eqb n) as D. rewrite <- C, str_eqb_refl in D. discriminate D.
Qed.
