(** * Props_Life: C69, a key set on disk serves all processes through its life.

    Whole command lines, in any number and order, run between the processes that use the keys. *)
From Coq Require Import Strings.String.
From Coq Require Import List ZArith NArith Bool Lia ZifyBool ZifyNat ZifyN.
From Coq.Init Require Import Byte.
From Verif Require Import PyBase PyFacts Sha1 Base64 Base64Facts Util UtilFacts Json JsonFacts KeyInfo SymKeys ModArith Der AsymSpec AsymKeys AsymFacts Keys KeysFacts KeyData Keyczar KeyRing
  KeyczarFacts UtilFacts2 SymFacts Props_Util Props_Sym Props_Asym Props_Keyset Props_Sign Disk Keyczart DiskFacts CrashFacts Props_Disk Props_Tool Props_Cmd Props_Session GenKeySet Props_Gen Props_Crypter.
Import ListNotations.
Local Open Scope Z_scope.
Ltac Zify.zify_post_hook ::= idtac.

(** ** Specification *)

(** A command line: the command, its arguments (see C50), and what the random generators yield. *)
Record line := MkLine { ln_cmd : str; ln_args : list arg; ln_draws : list draw; ln_env : nat -> env }.
Definition line_prog (gen : option str -> prog unit) (x : line) : prog unit :=
  main gen (ln_cmd x :: map arg_str (ln_args x)) (ln_draws x) (ln_env x).
Definition line_ok (x : line) : Prop := Forall arg_ok (ln_args x) /\ forall s, draws_ok (OpAdd (ln_draws x) s None).
(** Running command lines one after the other, whatever becomes of each. *)
Fixpoint run_lines (gen : option str -> prog unit) (xs : list line) (f : disk) : disk :=
  match xs with [] => f | x :: xs' => run_lines gen xs' (fst (exec (line_prog gen x) f)) end.

(** The line does not replace the key set at [l] as a whole: it is not genkey, which empties
    directories (C62), and not pubkey into [l] (C65). *)
Definition respects (l : str) (x : line) : Prop :=
  ln_cmd x <> bs "genkey" /\ (ln_cmd x = bs "pubkey" -> value DESTINATION (ln_args x) <> Some l).
(** The line revokes version [n] of the set at [l]. *)
Definition revokes (l : str) (n : Z) (x : line) : Prop :=
  ln_cmd x = bs "revoke" /\ value LOCATION (ln_args x) = Some l /\ exists v, value VERSION_FLAG (ln_args x) = Some v /\ integer v n.
(** The line adds a key to the set at [l], with and without crypting keys. *)
Definition adds_key (l : str) (x : line) : Prop := ln_cmd x = bs "addkey" /\ value LOCATION (ln_args x) = Some l.
Definition uses_crypter (l : str) (x : line) : Prop := adds_key l x /\ value CRYPTER (ln_args x) <> None.

(** ** What one line does *)

(** [c] is the change of the set at [l] that the line asks for. *)
Definition asks (l : str) (x : line) (c : kcmd) : Prop :=
  value LOCATION (ln_args x) = Some l /\
  match c with
  | CmdAddKey s z ds => ln_cmd x = bs "addkey" /\ ds = ln_draws x
  | CmdRevoke n => revokes l n x
  | _ => True
  end.

Lemma unchanged_only {A} (p : prog A) l f : only (fun d => d <> l) p -> forall n, file (fst (exec p f)) l n = file f l n.
Proof.
  intros O n. destruct (exec p f) as [g r] eqn:E. destruct (during_only _ p f g O (during_end _ _ _ _ E)) as [_ B]. apply B. tauto.
Qed.

Lemma only_Change (w : str -> Prop) ch l n es : w l -> only w (ChangeCmd ch (Some l) n es).
Proof.
  intros W. unfold ChangeCmd. apply only_bind; [apply only_reads, reads_generic|]. intros ks. destruct (n <? 0); [exact Logic.I|].
  destruct (ch ks n) as [ks' r]. apply only_bind; [destruct r; exact Logic.I|]. intros _. unfold UpdateGenericKeyczar.
  apply only_bind; [apply only_reads, reads_writer|]. intros _. apply only_WriteSet, W.
Qed.
Lemma only_Revoke (w : str -> Prop) l n es : w l -> only w (RevokeCmd (Some l) n es).
Proof.
  intros W. unfold RevokeCmd. apply only_bind; [apply only_Change, W|]. intros _. apply only_bind; [apply only_reads, reads_writer|]. intros _.
  unfold RemoveKey. cbn. split; [exact W|]. intros []; exact Logic.I.
Qed.

Lemma commands_named a c : GetCommand a = Ok c ->
  a = bs match c with CREATE => "create" | ADDKEY => "addkey" | PUBKEY => "pubkey" | PROMOTE => "promote" | DEMOTE => "demote" | REVOKE => "revoke" | GENKEY => "genkey" end%string.
Proof.
  unfold GetCommand. destruct (assoc str_eqb commands a) as [c'|] eqn:E; [|discriminate]. intros H. apply Ok_inj in H as ->.
  apply (assoc_In str_eqb_eq) in E. unfold commands in E. cbn [In] in E. destruct E as [E|[E|[E|[E|[E|[E|[E|[]]]]]]]]; injection E as <- <-; reflexivity.
Qed.

Lemma line_effect gen x l f name p t : all_plain f l name p t -> text_ok name -> line_ok x -> respects l x ->
  (uses_crypter l x -> exists ks n s k, loadable f l ks /\ ring_of ks n = Some (s, k)) ->
  forall g, g = fst (exec (line_prog gen x) f) ->
  (forall n, file g l n = file f l n) \/ exists c, asks l x c /\ kcmd_ok c /\ exec (kcmd_prog l c (ln_env x)) f = (g, Ok tt).
Proof.
  intros P HN [HA HDr] [NG NP] NE g EG. destruct P as (ks & L & _ & N1 & _ & _ & PF). pose proof (loadable_open _ _ _ L) as HO. pose proof (opened_dir _ _ None _ _ HO) as HD.
  assert (HNk : text_ok (ks_name ks)) by (rewrite N1; exact HN).
  assert (SAME : forall q, exec (line_prog gen x) f = exec q f -> only (fun d => d <> l) q -> forall n, file g l n = file f l n).
  { intros q E O. rewrite EG. rewrite E. apply unchanged_only, O. }
  assert (CMD : forall c, asks l x c -> kcmd_ok c -> exec (line_prog gen x) f = exec (kcmd_prog l c (ln_env x)) f ->
            (forall n, file g l n = file f l n) \/ exists c, asks l x c /\ kcmd_ok c /\ exec (kcmd_prog l c (ln_env x)) f = (g, Ok tt)).
  { intros c HC OK E. rewrite EG. rewrite E. destruct (exec (kcmd_prog l c (ln_env x)) f) as [g1 r1] eqn:EX. cbn [fst].
    destruct (C47_command l f ks c (ln_env x) g1 r1 L HNk OK EX) as [(-> & _)|(_ & -> & _)]; [right; exists c; rewrite EX; auto | left; reflexivity]. }
  destruct (C50_flags (ln_args x) HA) as (fl & EP & EV). unfold line_prog in *. cbn [main] in *.
  destruct (GetCommand (ln_cmd x)) as [cmd|e] eqn:EC; [|left; apply (SAME (Done (Raise e))); [reflexivity | exact Logic.I]].
  pose proof (commands_named _ _ EC) as CN.
  assert (EP' : parse_flags (ln_cmd x :: map arg_str (ln_args x)) [] = Ok fl).
  { rewrite parse_other; [exact EP|]. right. intros rest C. rewrite CN in C. destruct cmd; discriminate C. }
  rewrite EP' in *. cbn [pure pbind] in *. destruct (int_flags fl) as [vo so] eqn:EI. rewrite !EV in *.
  assert (VI : forall m, vo = Some m -> 0 <= m -> exists v, value VERSION_FLAG (ln_args x) = Some v /\ integer v m).
  { intros m -> Hm. unfold int_flags, int_flag in EI. rewrite !EV in EI. destruct (value VERSION_FLAG (ln_args x)) as [v|].
    - exists v. split; [reflexivity|]. destruct (py_int v) as [z|] eqn:EZ; [|discriminate]. apply (proj1 (C50_integers v)).
      destruct (match value SIZE (ln_args x) with Some s => py_int s | None => Ok (-1) end); injection EI as <- _; exact EZ.
    - exfalso. destruct (match value SIZE (ln_args x) with Some s => py_int s | None => Ok (-1) end); injection EI as <- _; lia. }
  destruct (value LOCATION (ln_args x)) as [loc|] eqn:ELOC.
  2:{ left. destruct cmd.
    - apply (SAME (Done (Raise KeyczarError))); [reflexivity | exact Logic.I].
    - match type of SAME with context [exec ?q f = _] => apply (SAME q eq_refl) end. destruct (GetStatus _) as [s|e]; [|exact Logic.I].
      apply only_bind; [destruct (value CRYPTER _); [apply only_bind; [apply only_reads, reads_location | intros ?; exact Logic.I] | exact Logic.I]|]. intros cr.
      apply only_bind; [destruct so; exact Logic.I|]. intros z. exact Logic.I.
    - match type of SAME with context [exec ?q f = _] => apply (SAME q eq_refl) end. destruct (value DESTINATION (ln_args x)); exact Logic.I.
    - match type of SAME with context [exec ?q f = _] => apply (SAME q eq_refl) end. destruct vo; exact Logic.I.
    - match type of SAME with context [exec ?q f = _] => apply (SAME q eq_refl) end. destruct vo; exact Logic.I.
    - match type of SAME with context [exec ?q f = _] => apply (SAME q eq_refl) end. destruct vo; exact Logic.I.
    - contradiction (NG CN). }
  destruct (list_eq_dec byte_eq_dec loc l) as [->|NL].
  2:{ left. match type of SAME with context [exec ?q f = _] => apply (SAME q eq_refl) end. destruct cmd.
    - apply only_Create, NL.
    - destruct (GetStatus _) as [s|e]; [|exact Logic.I].
      apply only_bind; [destruct (value CRYPTER _); [apply only_bind; [apply only_reads, reads_location | intros ?; exact Logic.I] | exact Logic.I]|]. intros cr.
      apply only_bind; [destruct so; exact Logic.I|]. intros z. apply only_AddKey, NL.
    - specialize (NP CN). destruct (value DESTINATION (ln_args x)) as [d|]; [apply only_PubKey; congruence | exact Logic.I].
    - apply only_bind; [destruct vo; exact Logic.I|]. intros v. apply only_Change, NL.
    - apply only_bind; [destruct vo; exact Logic.I|]. intros v. apply only_Change, NL.
    - apply only_bind; [destruct vo; exact Logic.I|]. intros v. apply only_Revoke, NL.
    - contradiction (NG CN). }
  destruct cmd.
  - left. intros n. rewrite EG. destruct (exec (Create _ _ _ _) f) as [g1 r1] eqn:EX. cbn [fst].
    destruct (C46_create_never_overwrites f _ _ _ _ g1 r1 EX) as ([->|[_ ->]] & _ & C); [|reflexivity]. exfalso.
    destruct (C eq_refl) as (l' & q & t' & E & _ & EM & _). injection E as <-. apply open_ok in HO as (s & m & ls & E1 & _). cbn [file_reader rd_meta] in E1. rewrite EM in E1. discriminate.
  - destruct (GetStatus _) as [s|e] eqn:ES; [|left; apply (SAME (Done (Raise e))); [reflexivity | exact Logic.I]]. cbn [pure pbind] in *.
    destruct so as [z|].
    2:{ left. match type of SAME with context [exec ?q f = _] => apply (SAME q eq_refl) end. apply only_bind; [|intros ?; exact Logic.I].
        destruct (value CRYPTER _); [apply only_bind; [apply only_reads, reads_location | intros ?; exact Logic.I] | exact Logic.I]. }
    destruct (value CRYPTER (ln_args x)) as [cl|] eqn:ECR.
    + left. assert (U : uses_crypter l x) by (split; [split; assumption | rewrite ECR; discriminate]).
      destruct (NE U) as (ks2 & n2 & s2 & k2 & L2 & R2). assert (ks2 = ks) as -> by (unfold loadable in L, L2; congruence).
      destruct (PF n2 s2 k2 R2) as [_ NO]. intros n. rewrite EG. rewrite exec_bind, exec_bind. pose proof (exec_reads _ (reads_location Crypter cl) f) as ER.
      destruct (exec (read_location Crypter cl) f) as [f1 [cr|e]]; cbn [fst] in ER; subst f1; [|reflexivity]. cbn [exec]. cbn [var pbind].
      unfold AddKeyCmd. rewrite exec_bind, exec_generic, HD. destruct (NO GenericKeyczar cr) as (e & E). rewrite exec_open in E. apply pair_inj in E as [_ ->]. reflexivity.
    + apply (CMD (CmdAddKey s z (ln_draws x))); [split; [exact ELOC | split; [exact CN | reflexivity]] | apply HDr | reflexivity].
  - left. specialize (NP CN). match type of SAME with context [exec ?q f = _] => apply (SAME q eq_refl) end.
    destruct (value DESTINATION (ln_args x)) as [d|]; [apply only_PubKey; congruence | exact Logic.I].
  - destruct vo as [m|]; [|left; apply (SAME (Done (Raise NameError))); [reflexivity | exact Logic.I]].
    apply (CMD (CmdPromote m)); [split; [exact ELOC | exact Logic.I] | exact Logic.I | reflexivity].
  - destruct vo as [m|]; [|left; apply (SAME (Done (Raise NameError))); [reflexivity | exact Logic.I]].
    apply (CMD (CmdDemote m)); [split; [exact ELOC | exact Logic.I] | exact Logic.I | reflexivity].
  - destruct vo as [m|]; [|left; apply (SAME (Done (Raise NameError))); [reflexivity | exact Logic.I]].
    destruct (Z_lt_le_dec m 0) as [Lm|Lm].
    + left. intros n. rewrite EG. cbn [var pbind]. unfold RevokeCmd. rewrite exec_bind, (exec_change _ _ _ _ _ _ L). replace (m <? 0) with true by lia. reflexivity.
    + apply (CMD (CmdRevoke m)); [split; [exact ELOC | split; [exact CN | split; [exact ELOC | apply VI; [reflexivity | exact Lm]]]] | exact Logic.I | reflexivity].
  - contradiction (NG CN).
Qed.

(** ** Histories *)

Definition distinct_ids (r : ring) : Prop := forall n m s s' k k', r n = Some (s, k) -> r m = Some (s', k') -> key_hash_id k = key_hash_id k' -> n = m.

(** Where a key of the ring comes from. *)
Lemma ring_cmd_origin t r c r' : ring_cmd t r c r' -> forall m s' k', r' m = Some (s', k') -> (exists s, r m = Some (s, k')) \/
  exists s z ds d, c = CmdAddKey s z ds /\ In d ds /\ GenKey d t (Some (size_of t z)) = Ok k' /\ forall m2 s2 k2, r m2 = Some (s2, k2) -> key_hash_id k2 <> key_hash_id k'.
Proof.
  assert (U : forall x s' k', unprimary x = Some (s', k') -> exists s : status, x = Some (s, k')).
  { intros [[[] k0]|] s' k' H; cbn [unprimary] in H; try discriminate; injection H as <- <-; eexists; reflexivity. }
  intros H m s' k' HM. destruct H as [s z ds d n k Hz Hd HG HX HI|n r' _ HP|n r' _ HP|n r' _ HP].
  - unfold ring_add in HM. destruct (m =? n); [injection HM as <- <-; right; exists s, z, ds, d; auto|]. left. destruct s; [apply U in HM; exact HM | eexists; exact HM | eexists; exact HM].
  - left. unfold ring_promote in HP. destruct (r n) as [[[] k]|] eqn:E; try discriminate; apply Some_inj in HP as <-; destruct (m =? n) eqn:EM;
      try (apply Z.eqb_eq in EM as ->; injection HM as <- <-; eexists; exact E); [apply U in HM; exact HM | eexists; exact HM].
  - left. unfold ring_demote in HP. destruct (r n) as [[[] k]|] eqn:E; try discriminate; apply Some_inj in HP as <-; destruct (m =? n) eqn:EM;
      try (apply Z.eqb_eq in EM as ->; injection HM as <- <-; eexists; exact E); eexists; exact HM.
  - left. unfold ring_revoke in HP. destruct (r n) as [[[] k]|] eqn:E; try discriminate; apply Some_inj in HP as <-. destruct (m =? n); [discriminate | eexists; exact HM].
Qed.

Lemma ring_cmd_keeps t r c r' n s k : ring_cmd t r c r' -> c <> CmdRevoke n -> r n = Some (s, k) -> exists s', r' n = Some (s', k).
Proof.
  assert (U : forall x s k, x = Some (s, k) -> exists s', unprimary x = Some (s', k)) by (intros x [] k0 ->; eexists; reflexivity).
  intros H NR HR. destruct H as [st z ds d m k0 Hz Hd HG HX HI|m r' _ HP|m r' _ HP|m r' _ HP].
  - unfold ring_add. destruct (n =? m) eqn:E; [exfalso; apply Z.eqb_eq in E; apply (proj1 (proj2 HX)) in HR; lia|]. destruct st; [apply (U _ s k HR) | eexists; exact HR | eexists; exact HR].
  - unfold ring_promote in HP. destruct (r m) as [[[] k0]|] eqn:E; try discriminate; apply Some_inj in HP as <-; destruct (n =? m) eqn:EM;
      try (apply Z.eqb_eq in EM as <-; rewrite E in HR; injection HR as <- <-; eexists; reflexivity); [apply (U _ s k HR) | eexists; exact HR].
  - unfold ring_demote in HP. destruct (r m) as [[[] k0]|] eqn:E; try discriminate; apply Some_inj in HP as <-; destruct (n =? m) eqn:EM;
      try (apply Z.eqb_eq in EM as <-; rewrite E in HR; injection HR as <- <-; eexists; reflexivity); eexists; exact HR.
  - unfold ring_revoke in HP. destruct (r m) as [[[] k0]|] eqn:E; try discriminate; apply Some_inj in HP as <-. destruct (n =? m) eqn:EM; [apply Z.eqb_eq in EM; congruence | eexists; exact HR].
Qed.

Lemma ring_cmd_ids t r c r' : distinct_ids r -> ring_cmd t r c r' -> distinct_ids r'.
Proof.
  intros D H n m s s' k k' Rn Rm E.
  destruct (ring_cmd_origin _ _ _ _ H _ _ _ Rn) as [(s1 & A1)|(st & z & ds & d & EC & _ & _ & F1)];
  destruct (ring_cmd_origin _ _ _ _ H _ _ _ Rm) as [(s2 & A2)|(st' & z' & ds' & d' & EC' & _ & _ & F2)].
  - apply (D _ _ _ _ _ _ A1 A2 E).
  - contradiction (F2 _ _ _ A1 E).
  - contradiction (F1 _ _ _ A2 (eq_sym E)).
  - subst c. injection EC' as -> -> ->. inversion H as [? ? ? d2 j kj ? ? ? ? ? E1 E2| | |]; subst. unfold ring_add in Rn, Rm.
    assert (X : forall i si ki, (if i =? j then Some (st', kj) else match st' with PRIMARY => unprimary (r i) | _ => r i end) = Some (si, ki) ->
               (forall m2 s2 k2, r m2 = Some (s2, k2) -> key_hash_id k2 <> key_hash_id ki) -> i = j).
    { intros i si ki Ri Oi. destruct (i =? j) eqn:EJ; [lia|]. exfalso. destruct st'; [|apply (Oi _ _ _ Ri eq_refl)|apply (Oi _ _ _ Ri eq_refl)].
      destruct (r i) as [[[] k1]|] eqn:ER; cbn [unprimary] in Ri; try discriminate; injection Ri as <- <-; apply (Oi _ _ _ ER eq_refl). }
    rewrite (X n s k Rn F1), (X m s' k' Rm F2). reflexivity.
Qed.

Lemma open_unchanged l f g c cr : (forall n, file g l n = file f l n) -> exec (open_files c l cr) g = (g, snd (exec (open_files c l cr) f)).
Proof. intros H. rewrite !exec_open. cbn [snd]. rewrite (open_same_files c l cr f g H). reflexivity. Qed.

Lemma plain_unchanged l f g name p t : (forall n, file g l n = file f l n) -> all_plain f l name p t -> all_plain g l name p t.
Proof.
  intros H (ks & L & R). exists ks. unfold loadable in *. rewrite (open_unchanged l f g _ _ H), L. split; [reflexivity|].
  destruct R as (E & N1 & N2 & N3 & R). repeat (split; [assumption|]). intros n s k HR. destruct (R n s k HR) as [(x & A & B) C].
  split; [exists x; rewrite H; auto|]. intros cl cr. destruct (C cl cr) as (e & D). exists e. rewrite (open_unchanged l f g _ _ H), D. reflexivity.
Qed.

(** The ring at [l] after a line. *)
Lemma line_step gen x l f name p t ks : all_plain f l name p t -> loadable f l ks -> text_ok name -> line_ok x -> respects l x ->
  (uses_crypter l x -> exists n s k, ring_of ks n = Some (s, k)) ->
  let g := fst (exec (line_prog gen x) f) in
  all_plain g l name p t /\ exists ks', loadable g l ks' /\
    ((forall n, ring_of ks' n = ring_of ks n) \/ exists c r', asks l x c /\ ring_cmd t (ring_of ks) c r' /\ forall n, ring_of ks' n = r' n).
Proof.
  intros P L HN OK RS UC g. assert (EN : ks_name ks = name /\ ks_purpose ks = p /\ ks_type ks = t).
  { destruct P as (ks1 & L1 & _ & N1 & N2 & N3 & _). assert (ks1 = ks) as -> by (unfold loadable in L, L1; congruence). auto. }
  destruct EN as (N1 & N2 & N3).
  destruct (line_effect gen x l f name p t P HN OK RS) with (g := g) as [S|(c & HC & OC & EX)].
  - intros U. destruct (UC U) as (n & s & k & HR). exists ks, n, s, k. auto.
  - reflexivity.
  - split; [apply (plain_unchanged l f g _ _ _ S P)|]. exists ks. split; [unfold loadable in *; rewrite (open_unchanged l f g _ _ S), L; reflexivity | left; reflexivity].
  - assert (HNk : text_ok (ks_name ks)) by (rewrite N1; exact HN).
    destruct (C47_command l f ks c _ g (Ok tt) L HNk OC EX) as [(_ & (ks1 & r1 & L1 & A1 & A2 & A3 & RC & RE) & _)|((e & E) & _)]; [|discriminate].
    split; [|exists ks1; split; [exact L1|]; right; exists c, r1; rewrite <- N3; auto].
    rewrite <- N1, <- N2, <- N3, <- A1, <- A2, <- A3. apply (loadable_plain g l ks1 L1). apply (command_text l f ks c _ g ks1 L HNk OC EX L1).
Qed.

Lemma lines_keep gen l n k name p t : text_ok name -> forall xs f ks s, all_plain f l name p t -> loadable f l ks -> distinct_ids (ring_of ks) -> ring_of ks n = Some (s, k) ->
  Forall line_ok xs -> Forall (respects l) xs -> Forall (fun x => ~ revokes l n x) xs ->
  all_plain (run_lines gen xs f) l name p t /\ exists ks' s', loadable (run_lines gen xs f) l ks' /\ distinct_ids (ring_of ks') /\ ring_of ks' n = Some (s', k).
Proof.
  intros HN. induction xs as [|x xs IH]; intros f ks s P L D HR OK RS NR; cbn [run_lines]; [split; [exact P | exists ks, s; auto]|].
  destruct (line_step gen x l f name p t ks P L HN (Forall_inv OK) (Forall_inv RS)) as (P1 & ks1 & L1 & S); [intros _; exists n, s, k; exact HR|].
  apply Forall_inv_tail in OK, RS. pose proof (Forall_inv NR) as NX. apply Forall_inv_tail in NR.
  destruct S as [S|(c & r' & HC & RC & RE)].
  - apply (IH _ ks1 s P1 L1); try assumption; [|rewrite S; exact HR]. intros a b sa sb ka kb. rewrite !S. apply D.
  - assert (NC : c <> CmdRevoke n) by (intros ->; destruct HC as [_ HC]; contradiction).
    destruct (ring_cmd_keeps _ _ _ _ _ _ _ RC NC HR) as (s' & HR'). apply (IH _ ks1 s' P1 L1); try assumption; [|rewrite RE; exact HR'].
    intros a b sa sb ka kb. rewrite !RE. apply (ring_cmd_ids _ _ _ _ D RC).
Qed.

Lemma read_dir c l f : exec (read_location c l) f = if has_dir f l then exec (open_files c l None) f else (f, Raise KeyczarError).
Proof. apply exec_read_location. Qed.

(** Every class that accepts the purpose reads the same set. *)
Lemma open_class c c' rd ks : open_keyset c rd = Ok ks -> In (ks_purpose ks) (accepts c') -> open_keyset c' rd = Ok ks.
Proof.
  intros H A. pose proof (open_ok _ _ _ H) as (s & m & ls & E1 & E2 & E3 & _ & _ & _ & EP & _).
  unfold open_keyset in *. rewrite E1 in *. cbn [bind] in *. rewrite E2 in *. cbn [bind] in *. rewrite E3 in H. rewrite EP in A.
  replace (IsAcceptablePurpose c' (m_purpose m)) with true by (destruct c', (m_purpose m); cbn in A; intuition discriminate). exact H.
Qed.

Lemma read_loadable c l f ks : exec (read_location c l) f = (f, Ok ks) <-> loadable f l ks /\ In (ks_purpose ks) (accepts c).
Proof.
  rewrite read_dir. split.
  - intros H. destruct (has_dir f l) eqn:HD; [|discriminate (f_equal snd H)]. rewrite exec_open in H. apply pair_inj in H as [_ H]. split.
    + unfold loadable. rewrite exec_open. f_equal. apply (open_class c _ _ _ H). destruct (ks_purpose ks); cbn; tauto.
    + apply (C33_opened_sets_have_the_purpose _ _ _ [] H).
  - intros [L A]. apply loadable_open in L. rewrite (opened_dir f l None ks _ L), exec_open. f_equal. apply (open_class _ c _ _ L A).
Qed.

(** ** C69 *)

(** The key set at [l] comes from [keyczart create] and any later command lines, run one after the other, each
    with whatever outcome, none of them with crypting keys for this set. *)
Definition tool_made (gen : option str -> prog unit) (l : str) (f : disk) : Prop :=
  exists f0 x0 f1 xs, ln_cmd x0 = bs "create" /\ value LOCATION (ln_args x0) = Some l /\ line_ok x0 /\ exec (line_prog gen x0) f0 = (f1, Ok tt) /\
    Forall line_ok xs /\ Forall (respects l) xs /\ Forall (fun x => ~ uses_crypter l x) xs /\ f = run_lines gen xs f1.
(** What a process encodes with, another decodes with. *)
Definition paired (enc dec : codec) : Prop := enc = None /\ dec = None \/ enc = b64_encoder /\ dec = b64_decoder.

Lemma lines_plain gen l name p t : text_ok name -> forall xs f ks, all_plain f l name p t -> loadable f l ks -> distinct_ids (ring_of ks) ->
  Forall line_ok xs -> Forall (respects l) xs -> Forall (fun x => ~ uses_crypter l x) xs ->
  all_plain (run_lines gen xs f) l name p t /\ exists ks', loadable (run_lines gen xs f) l ks' /\ distinct_ids (ring_of ks').
Proof.
  intros HN. induction xs as [|x xs IH]; intros f ks P L D OK RS NC; cbn [run_lines]; [split; [exact P | exists ks; auto]|].
  destruct (line_step gen x l f name p t ks P L HN (Forall_inv OK) (Forall_inv RS)) as (P1 & ks1 & L1 & S); [intros C; contradiction (Forall_inv NC C)|].
  apply Forall_inv_tail in OK, RS, NC. apply (IH _ ks1 P1 L1); try assumption. intros a b sa sb ka kb.
  destruct S as [S|(c & r' & _ & RC & RE)]; [rewrite !S; apply D | rewrite !RE; apply (ring_cmd_ids _ _ _ _ D RC)].
Qed.

Lemma tool_made_plain gen l f : tool_made gen l f -> exists name p a t ks, text_ok name /\ implied p a t /\ all_plain f l name p t /\ loadable f l ks /\ distinct_ids (ring_of ks).
Proof.
  intros (f0 & x0 & f1 & xs & HC & HL & [HA _] & EX & OK & RS & NC & ->). destruct (C50_flags (ln_args x0) HA) as (fl & EP & EV).
  assert (EC : exists name q a, exec (Create (Some l) (text_of_str name) q a) f0 = (f1, Ok tt)).
  { unfold line_prog, main in EX. rewrite HC in EX. change (GetCommand (bs "create")) with (Ok CREATE) in EX.
    assert (EP' : parse_flags (bs "create" :: map arg_str (ln_args x0)) [] = Ok fl) by (rewrite parse_other; [exact EP | right; intros rest C; discriminate C]).
    rewrite EP' in EX. cbn [pure pbind] in EX. destruct (int_flags fl). rewrite !EV, HL in EX. eexists _, _, _. exact EX. }
  destruct EC as (name & q & a & EC). destruct (C46_create_never_overwrites _ _ _ _ _ _ _ EC) as (_ & _ & C).
  destruct (C eq_refl) as (l' & p & t & E & HD & HF & -> & HI). injection E as <-.
  destruct (C46_create_fresh f0 l (text_of_str name) p a t HD HF (text_of_str_ok name) HI) as (g & s & EG & _ & ks & L & N1 & N2 & N3 & _ & _ & RE).
  rewrite EC in EG. apply pair_inj in EG as [<- _]. exists (text_of_str name), p, a, t.
  destruct (lines_plain gen l (text_of_str name) p t (text_of_str_ok name) xs f1 ks) as (P & ks' & L' & D'); try assumption.
  - rewrite <- N1, <- N2, <- N3. apply (loadable_plain f1 l ks L). intros n s0 k HR. rewrite RE in HR. discriminate HR.
  - intros n m s0 s1 k k' HR. rewrite RE in HR. discriminate HR.
  - exists ks'. auto using text_of_str_ok.
Qed.

Lemma loadable_holds f l ks n s k : loadable f l ks -> distinct_ids (ring_of ks) -> ring_of ks n = Some (s, k) -> holds ks n k.
Proof.
  intros L D HR. apply loadable_open in L. split; [apply made_reached, (made_open _ _ _ L)|]. split; [apply (opened_ids _ _ _ L D) | exists s; exact HR].
Qed.

(** What is at [l] after the lines, for a process that opened [A] before them. *)
Record life (l : str) (f g : disk) (A : keyset) (n : Z) (k : key) : Prop := {
  lf_A : loadable f l A; lf_holds : holds A n k; lf_dist : distinct_ids (ring_of A);
  lf_plain : exists name p a t, text_ok name /\ implied p a t /\ ks_purpose A = p /\ ks_type A = t /\ all_plain f l name p t /\ all_plain g l name p t;
  lf_B : exists B, loadable g l B /\ ks_name B = ks_name A /\ ks_purpose B = ks_purpose A /\ ks_type B = ks_type A /\ distinct_ids (ring_of B) /\ holds B n k }.

Lemma plain_facts f l name p t ks : all_plain f l name p t -> loadable f l ks -> ks_name ks = name /\ ks_purpose ks = p /\ ks_type ks = t.
Proof.
  intros (ks1 & L1 & _ & N1 & N2 & N3 & _) L. assert (ks1 = ks) as -> by (unfold loadable in L, L1; congruence). auto.
Qed.

Lemma lines_life gen l f c A n s k xs : tool_made gen l f -> exec (read_location c l) f = (f, Ok A) -> ring_of A n = Some (s, k) ->
  Forall line_ok xs -> Forall (respects l) xs -> Forall (fun x => ~ revokes l n x) xs -> life l f (run_lines gen xs f) A n k.
Proof.
  intros TM HA HR OK RS NR. apply read_loadable in HA as [LA _]. destruct (tool_made_plain _ _ _ TM) as (name & p & a & t & ks & HN & HI & P & L & D).
  assert (ks = A) as -> by (unfold loadable in L, LA; congruence). destruct (plain_facts _ _ _ _ _ _ P LA) as (N1 & N2 & N3).
  destruct (lines_keep gen l n k name p t HN xs f A s P LA D HR OK RS NR) as (P' & B & s' & LB & DB & RB). destruct (plain_facts _ _ _ _ _ _ P' LB) as (M1 & M2 & M3).
  constructor; [exact LA | apply (loadable_holds _ _ _ _ _ _ LA D HR) | exact D | exists name, p, a, t; auto 10 |].
  exists B. repeat (split; [congruence || assumption|]). apply (loadable_holds _ _ _ _ _ _ LB DB RB).
Qed.

(** Whatever command lines are run after the encryption, short of revoking the key, every process that
    opens the set afterwards, with any class for its purpose, decrypts as the first one would have. *)
Theorem C69_encrypted_data : forall gen l f c A n k e data enc dec ct xs c', tool_made gen l f ->
  exec (read_location c l) f = (f, Ok A) -> ring_of A n = Some (PRIMARY, k) -> paired enc dec -> Encrypt e A data enc = Ok ct ->
  Forall line_ok xs -> Forall (respects l) xs -> Forall (fun x => ~ revokes l n x) xs -> In (ks_purpose A) (accepts c') ->
  let g := run_lines gen xs f in
  exists B, exec (read_location c' l) g = (g, Ok B) /\ Decrypt B ct dec = Decrypt A ct dec /\ (ks_type A = AES -> Decrypt B ct dec = Ok data).
Proof.
  intros gen l f c A n k e data enc dec ct xs c' TM HA HR PC HE OK RS NR AC g.
  destruct (lines_life gen l f c A n PRIMARY k xs TM HA HR OK RS NR) as [LA HH _ _ (B & LB & _ & PB & _ & _ & HB)]. exists B.
  split; [apply read_loadable; split; [exact LB | rewrite PB; exact AC]|]. pose proof (loadable_open _ _ _ LA) as OA. pose proof (made_open _ _ _ OA) as MA.
  assert (R : exists raw, Encrypt e A data None = Ok raw /\ Decrypt B ct dec = Decrypt B raw None /\ Decrypt A ct dec = Decrypt A raw None).
  { destruct PC as [[-> ->]|[-> ->]]; [exists ct; auto|]. apply Encrypt_b64 in HE as (raw & HE & ->). exists raw. rewrite !Decrypt_b64. auto. }
  destruct R as (raw & HE' & -> & ->). destruct (encrypt_shape e A data raw (made_reached _ MA) HE') as (n2 & k2 & id & rest & HR2 & HID & HLEN & HEk & ->).
  destruct (ring_one_primary A (made_inv _ MA) n n2 k k2 HR HR2) as [<- <-].
  rewrite (Decrypt_made B n k id rest HB HID HLEN), (Decrypt_made A n k id rest HH HID HLEN). split; [reflexivity|]. intros T.
  destruct (ring_entry A n PRIMARY k (made_inv _ MA) HR) as (o & _ & HK & _).
  pose proof (inv_type A (made_inv _ MA) o k (assoc_In Nat.eqb_eq HK)) as HT. rewrite T in HT. destruct (key_type_aes k HT) as (a & ->).
  apply (aes_key_roundtrip e a data _ _ HID HEk).
Qed.
Print Assumptions C69_encrypted_data.

(** Likewise signatures, detached and attached. *)
Theorem C69_signatures : forall gen l f c A n k e data xs c', tool_made gen l f ->
  exec (read_location c l) f = (f, Ok A) -> ring_of A n = Some (PRIMARY, k) ->
  Forall line_ok xs -> Forall (respects l) xs -> Forall (fun x => ~ revokes l n x) xs -> In (ks_purpose A) (accepts c') ->
  let g := run_lines gen xs f in
  exists B, exec (read_location c' l) g = (g, Ok B) /\
    (forall enc dec sig, paired enc dec -> signs_soundly e k (data ++ VERSION_BYTE) -> Sign e A data enc = Ok sig -> Verify B data sig dec = Ok true) /\
    (forall enc dec nonce blob, paired enc dec -> (forall pn, PackByteArray nonce = Ok pn -> signs_soundly e k (data ++ pn ++ VERSION_BYTE)) ->
       AttachedSign e A data nonce enc = Ok blob -> AttachedVerify B blob nonce dec = Ok (Some data)).
Proof.
  intros gen l f c A n k e data xs c' TM HA HR OK RS NR AC g.
  destruct (lines_life gen l f c A n PRIMARY k xs TM HA HR OK RS NR) as [LA HH _ _ (B & LB & _ & PB & _ & _ & HB)]. exists B.
  split; [apply read_loadable; split; [exact LB | rewrite PB; exact AC]|].
  assert (SG : signer_of A k) by (split; [exact (proj1 HH) | exists n; exact HR]).
  split.
  - intros enc dec sig PC SS HS. destruct (C35_detached_signatures e A k data B n k SG SS HB (or_introl eq_refl)) as [H1 H2].
    destruct PC as [[-> ->]|[-> ->]]; auto.
  - intros enc dec nonce blob PC SS HS. destruct (C37_attached_roundtrip e A k data nonce B n k SG SS HB (or_introl eq_refl)) as [H1 H2].
    destruct PC as [[-> ->]|[-> ->]]; auto.
Qed.
Print Assumptions C69_signatures.

(** A line about other locations leaves a location alone. *)
Definition leaves (d : str) (x : line) : Prop := respects d x /\ value LOCATION (ln_args x) <> Some d.

Lemma line_elsewhere gen x d : line_ok x -> leaves d x -> only (fun d' => d' <> d) (line_prog gen x).
Proof.
  intros [HA _] [[NG NP] NL]. destruct (C50_flags (ln_args x) HA) as (fl & EP & EV). unfold line_prog. cbn [main].
  destruct (GetCommand (ln_cmd x)) as [cmd|e] eqn:EC; [|exact Logic.I]. pose proof (commands_named _ _ EC) as CN.
  assert (EP' : parse_flags (ln_cmd x :: map arg_str (ln_args x)) [] = Ok fl).
  { rewrite parse_other; [exact EP|]. right. intros rest C. rewrite CN in C. destruct cmd; discriminate C. }
  rewrite EP'. cbn [pure pbind]. destruct (int_flags fl) as [vo so]. rewrite !EV.
  assert (ADD : forall lo (s : status), (forall cr z, only (fun d' => d' <> d) (AddKeyCmd lo s cr z (ln_draws x) (ln_env x))) ->
    only (fun d' => d' <> d) (do crypter <- match value CRYPTER (ln_args x) with Some c => do ks <- read_location Crypter c; Done (Ok (Some ks)) | None => Done (Ok None) end;
                              do z <- var so; AddKeyCmd lo s crypter z (ln_draws x) (ln_env x))).
  { intros lo s H. apply only_bind; [destruct (value CRYPTER _); [apply only_bind; [apply only_reads, reads_location | intros ?; exact Logic.I] | exact Logic.I]|]. intros cr.
    apply only_bind; [destruct so; exact Logic.I|]. intros z. apply H. }
  destruct (value LOCATION (ln_args x)) as [loc|].
  - assert (NE : loc <> d) by congruence. destruct cmd.
    + apply only_Create, NE.
    + destruct (GetStatus _) as [s|e]; [|exact Logic.I]. apply ADD. intros cr z. apply only_AddKey, NE.
    + specialize (NP CN). destruct (value DESTINATION (ln_args x)) as [d'|]; [apply only_PubKey; congruence | exact Logic.I].
    + apply only_bind; [destruct vo; exact Logic.I|]. intros v. apply only_Change, NE.
    + apply only_bind; [destruct vo; exact Logic.I|]. intros v. apply only_Change, NE.
    + apply only_bind; [destruct vo; exact Logic.I|]. intros v. apply only_Revoke, NE.
    + contradiction (NG CN).
  - destruct cmd.
    + exact Logic.I.
    + destruct (GetStatus _) as [s|e]; [|exact Logic.I]. apply ADD. intros cr z. exact Logic.I.
    + destruct (value DESTINATION (ln_args x)); exact Logic.I.
    + destruct vo; exact Logic.I.
    + destruct vo; exact Logic.I.
    + destruct vo; exact Logic.I.
    + contradiction (NG CN).
Qed.

Lemma lines_elsewhere gen d : forall xs f, Forall line_ok xs -> Forall (leaves d) xs -> forall n, file (run_lines gen xs f) d n = file f d n.
Proof.
  induction xs as [|x xs IH]; intros f OK LV n; cbn [run_lines]; [reflexivity|].
  rewrite (IH _ (Forall_inv_tail OK) (Forall_inv_tail LV)). apply unchanged_only, line_elsewhere; [apply (Forall_inv OK) | apply (Forall_inv LV)].
Qed.

Lemma only_any {A} (p : prog A) : only (fun _ => True) p.
Proof. induction p; cbn; auto. Qed.
Lemma lines_dir gen d : forall xs f, has_dir (run_lines gen xs f) d = has_dir f d.
Proof.
  induction xs as [|x xs IH]; intros f; cbn [run_lines]; [reflexivity|]. rewrite IH.
  destruct (exec (line_prog gen x) f) as [g r] eqn:E. apply (during_only _ _ f g (only_any (line_prog gen x)) (during_end _ _ _ _ E)).
Qed.
Lemma run_lines_app gen xs ys f : run_lines gen (xs ++ ys) f = run_lines gen ys (run_lines gen xs f).
Proof. revert f. induction xs as [|x xs IH]; intros f; cbn [app run_lines]; [reflexivity | apply IH]. Qed.

(** [y] exports the public half of the set at [l] to [d]. *)
Definition exports (l d : str) (y : line) : Prop :=
  ln_cmd y = bs "pubkey" /\ value LOCATION (ln_args y) = Some l /\ value DESTINATION (ln_args y) = Some d.

Lemma export_line gen y l d f B pt pp c : line_ok y -> exports l d y -> loadable f l B -> text_ok (ks_name B) -> distinct_ids (ring_of B) ->
  has_dir f d = true -> exported_as (ks_type B) (ks_purpose B) = Some (pt, pp) -> In pp (accepts c) ->
  exists g V, exec (line_prog gen y) f = (g, Ok tt) /\ loadable g d V /\ In (ks_purpose V) (accepts c) /\ distinct_ids (ring_of V) /\
    forall n s pub, ring_of V n = Some (s, pub) <-> exists k, ring_of B n = Some (s, k) /\ public_key k = Ok pub.
Proof.
  intros [HA _] (E1 & E2 & E3) L HN D HD EX AC. destruct (C45_pubkey_command l d f B pt pp L HN HD EX) as (g & EG & HC).
  destruct (HC c AC) as (V & OV & RV). exists g, V. split.
  { unfold line_prog. rewrite E1. destruct (C50_runs gen (ln_args y) (ln_draws y) (ln_env y) HA) as (_ & -> & _). rewrite E2, E3. exact EG. }
  assert (RL : exec (read_location c d) g = (g, Ok V)).
  { rewrite read_dir. rewrite exec_open in OV. apply pair_inj in OV as [_ OV]. rewrite (opened_dir g d None V c OV), exec_open, OV. reflexivity. }
  apply read_loadable in RL as [LV PV]. split; [exact LV|]. split; [exact PV|].
  assert (RR : forall n s pub, ring_of V n = Some (s, pub) <-> exists k, ring_of B n = Some (s, k) /\ public_key k = Ok pub).
  { intros n s pub. specialize (RV n). destruct (ring_of B n) as [[s0 k0]|].
    - destruct RV as (pub0 & A1 & A2 & _). rewrite A2. split; [intros H; injection H as <- <-; exists k0; auto|]. intros (k & H & Hk). injection H as <- <-. congruence.
    - rewrite RV. split; [discriminate | intros (k & H & _); discriminate H]. }
  split; [|exact RR]. intros a b sa sb ka kb Ha Hb E. apply RR in Ha as (ka' & Ha & Pa). apply RR in Hb as (kb' & Hb & Pb).
  apply (D _ _ _ _ _ _ Ha Hb). rewrite <- (public_id ka' ka (or_intror Pa)), <- (public_id kb' kb (or_intror Pb)). exact E.
Qed.

(** Signatures made with a private set are accepted by every process that opens the public set exported from it at any
    later time while the signing key was not yet revoked, whatever happens to the private set after the export. *)
Theorem C69_exported_verifiers : forall gen l d f A n k e data enc dec sig xs y ys c', tool_made gen l f ->
  exec (read_location Signer l) f = (f, Ok A) -> ring_of A n = Some (PRIMARY, k) -> ks_type A <> HMAC_SHA1 -> has_dir f d = true -> l <> d ->
  paired enc dec -> signs_soundly e k (data ++ VERSION_BYTE) -> Sign e A data enc = Ok sig ->
  Forall line_ok (xs ++ y :: ys) -> Forall (respects l) xs -> Forall (fun x => ~ revokes l n x) xs -> exports l d y -> Forall (leaves d) ys ->
  In VERIFY (accepts c') ->
  let g := run_lines gen (xs ++ y :: ys) f in
  exists V, exec (read_location c' d) g = (g, Ok V) /\ Verify V data sig dec = Ok true.
Proof.
  intros gen l d f A n k e data enc dec sig xs y ys c' TM HA HR NT HD NE PC SS HS OK RS NR EXP LV AC g.
  apply Forall_app in OK as [OK1 OK2]. pose proof (Forall_inv OK2) as OKy. apply Forall_inv_tail in OK2.
  destruct (lines_life gen l f Signer A n PRIMARY k xs TM HA HR OK1 RS NR) as [LA HH _ (name & p & a & t & HN & HI & EP & ET & PF & PG) (B & LB & NB & PB & TB & DB & HB)].
  apply read_loadable in HA as [_ PA].
  assert (PS : ks_purpose A = SIGN_AND_VERIFY) by (cbn in PA; destruct PA as [PA|[]]; symmetry; exact PA).
  assert (EX : exists pt, exported_as (ks_type B) (ks_purpose B) = Some (pt, VERIFY)).
  { rewrite TB, PB, PS. rewrite PS in EP. rewrite <- EP, <- ET in HI. clear - HI NT. inversion HI; try (exfalso; congruence); eexists; reflexivity. }
  destruct EX as (pt & EX). destruct (plain_facts _ _ _ _ _ _ PG LB) as (NB' & _).
  destruct (export_line gen y l d (run_lines gen xs f) B pt VERIFY c' OKy EXP LB) as (h & V & EG & LVd & PV & DV & RV); try assumption.
  - rewrite NB'. exact HN.
  - rewrite lines_dir. exact HD.
  - exists V. assert (FG : forall m, file g d m = file h d m).
    { intros m. unfold g. rewrite run_lines_app. cbn [run_lines]. rewrite EG. cbn [fst]. apply lines_elsewhere; assumption. }
    assert (LG : loadable g d V) by (unfold loadable in *; rewrite (open_unchanged d h g _ _ FG), LVd; reflexivity).
    split; [apply read_loadable; auto|]. destruct HB as (_ & _ & s' & RB).
    assert (KP : exists pub, public_key k = Ok pub).
    { destruct k; cbn [signs_soundly] in SS; try contradiction; cbn [public_key]; try (eexists; reflexivity). exfalso. apply NT.
      destruct HH as (RA & _ & s0 & R0). destruct (ring_entry A n s0 _ (reached_inv _ RA) R0) as (o & _ & HK & _). symmetry. apply (inv_type A (reached_inv _ RA) o _ (assoc_In Nat.eqb_eq HK)). }
    destruct KP as (pub & KP). assert (HV : ring_of V n = Some (s', pub)) by (apply RV; exists k; auto).
    pose proof (loadable_holds _ _ _ _ _ _ LG DV HV) as HLD. assert (SG : signer_of A k) by (split; [exact (proj1 HH) | exists n; exact HR]).
    destruct (C35_detached_signatures e A k data V n pub SG SS HLD (or_intror KP)) as [H1 H2]. destruct PC as [[-> ->]|[-> ->]]; auto.
Qed.
Print Assumptions C69_exported_verifiers.

(** What is encrypted with an exported public set reaches the private key whose public half encrypted it, in every process that
    opens the private set later while the key is not revoked. *)
Theorem C69_exported_encrypters : forall gen l d f A y ys f1 E n pub e data enc dec ct xs c c', tool_made gen l f ->
  exec (read_location c l) f = (f, Ok A) -> ks_purpose A = DECRYPT_AND_ENCRYPT -> ks_type A <> AES -> has_dir f d = true -> l <> d ->
  line_ok y -> exports l d y -> Forall line_ok ys -> Forall (respects l) ys -> Forall (fun x => ~ revokes l n x) ys -> Forall (leaves d) ys -> f1 = run_lines gen (y :: ys) f ->
  exec (read_location Encrypter d) f1 = (f1, Ok E) -> ring_of E n = Some (PRIMARY, pub) -> paired enc dec -> Encrypt e E data enc = Ok ct ->
  Forall line_ok xs -> Forall (respects l) xs -> Forall (fun x => ~ revokes l n x) xs -> In DECRYPT_AND_ENCRYPT (accepts c') ->
  let g := run_lines gen xs f1 in
  exists B s k raw, exec (read_location c' l) g = (g, Ok B) /\ ring_of B n = Some (s, k) /\ public_key k = Ok pub /\
    key_Encrypt e pub data = Ok raw /\ Decrypt B ct dec = key_Decrypt k raw.
Proof.
  intros gen l d f A y ys f1 E n pub e data enc dec ct xs c c' TM HA PA TA HD NE OKy EXP OKs RSs NRs LVs EF HE HR PC HC OK RS NR AC g.
  destruct (tool_made_plain _ _ _ TM) as (name & p & a & t & ks & HN & HI & P & L & D). apply read_loadable in HA as [LA AA].
  assert (ks = A) as -> by (unfold loadable in L, LA; congruence). destruct (plain_facts _ _ _ _ _ _ P LA) as (N1 & N2 & N3).
  assert (EX : exists pt, exported_as (ks_type A) (ks_purpose A) = Some (pt, ENCRYPT)).
  { rewrite PA. rewrite PA in N2. rewrite <- N2, <- N3 in HI. clear - HI TA. inversion HI; try (exfalso; congruence); eexists; reflexivity. }
  destruct EX as (pt & EX).
  destruct (export_line gen y l d f A pt ENCRYPT Encrypter OKy EXP LA) as (h & V & EG & LVd & PV & DV & RV); try assumption; [rewrite N1; exact HN | cbn; tauto |].
  assert (FG : forall m, file f1 d m = file h d m).
  { intros m. rewrite EF. cbn [run_lines]. rewrite EG. cbn [fst]. apply lines_elsewhere; assumption. }
  assert (LG : loadable f1 d V) by (unfold loadable in *; rewrite (open_unchanged d h f1 _ _ FG), LVd; reflexivity).
  apply read_loadable in HE as [LE _]. assert (V = E) as -> by (unfold loadable in LG, LE; congruence).
  apply RV in HR as HRk. destruct HRk as (k & HRA & KP).
  assert (ALL : Forall line_ok ((y :: ys) ++ xs) /\ Forall (respects l) ((y :: ys) ++ xs) /\ Forall (fun x => ~ revokes l n x) ((y :: ys) ++ xs)).
  { destruct EXP as (C1 & C2 & C3). repeat split; apply Forall_app; split; try assumption; constructor; try assumption.
    - split; [rewrite C1; discriminate | intros _; rewrite C3; congruence].
    - intros (C & _). rewrite C1 in C. discriminate C. }
  destruct ALL as (A1 & A2 & A3). assert (HA : exec (read_location GenericKeyczar l) f = (f, Ok A)) by (apply read_loadable; split; [exact LA | rewrite PA; cbn; tauto]).
  destruct (lines_life gen l f GenericKeyczar A n PRIMARY k _ TM HA HRA A1 A2 A3) as [_ _ _ _ (B & LB & _ & PB & _ & _ & HB)].
  rewrite run_lines_app, <- EF in LB. fold g in LB. destruct (HB) as (_ & _ & s & RB). exists B, s, k.
  assert (R : exists raw, Encrypt e E data None = Ok raw /\ Decrypt B ct dec = Decrypt B raw None).
  { destruct PC as [[-> ->]|[-> ->]]; [exists ct; auto|]. apply Encrypt_b64 in HC as (raw & HC & ->). exists raw. rewrite !Decrypt_b64. auto. }
  destruct R as (raw & HC' & ->). exists raw. pose proof (made_open _ _ _ (loadable_open _ _ _ LE)) as ME.
  destruct (encrypt_shape e E data raw (made_reached _ ME) HC') as (n2 & k2 & id & rest & HR2 & HID & HLEN & HEk & ->).
  destruct (ring_one_primary E (made_inv _ ME) n n2 pub k2 HR HR2) as [<- <-].
  split; [apply read_loadable; split; [exact LB | rewrite PB, PA; exact AC]|]. repeat (split; [assumption|]).
  apply (Decrypt_made B n k id rest HB); [rewrite <- (public_id k pub (or_intror KP)); exact HID | exact HLEN].
Qed.
Print Assumptions C69_exported_encrypters.

Lemma lines_without gen l h name p t : text_ok name -> forall xs f ks, all_plain f l name p t -> loadable f l ks ->
  (forall m s k, ring_of ks m = Some (s, k) -> key_hash_id k <> h) ->
  Forall line_ok xs -> Forall (respects l) xs -> Forall (fun x => ~ uses_crypter l x) xs ->
  Forall (fun x => adds_key l x -> forall d ty z k', In d (ln_draws x) -> GenKey d ty z = Ok k' -> key_hash_id k' <> h) xs ->
  exists ks', loadable (run_lines gen xs f) l ks' /\ forall m s k, ring_of ks' m = Some (s, k) -> key_hash_id k <> h.
Proof.
  intros HN. induction xs as [|x xs IH]; intros f ks P L D OK RS NC NG; cbn [run_lines]; [exists ks; auto|].
  destruct (line_step gen x l f name p t ks P L HN (Forall_inv OK) (Forall_inv RS)) as (P1 & ks1 & L1 & S); [intros C; contradiction (Forall_inv NC C)|].
  pose proof (Forall_inv NG) as NX. apply Forall_inv_tail in OK, RS, NC, NG. apply (IH _ ks1 P1 L1); try assumption. intros m s k HM.
  destruct S as [S|(c & r' & AS & RC & RE)]; [rewrite S in HM; apply (D _ _ _ HM)|]. rewrite RE in HM.
  destruct (ring_cmd_origin _ _ _ _ RC _ _ _ HM) as [(s0 & H0)|(st & z & ds & d & -> & Hd & HG & _)]; [apply (D _ _ _ H0)|].
  destruct AS as (EL & EC & ->). apply (NX (conj EC EL) d t (Some (size_of t z)) k Hd HG).
Qed.

(** After a revocation that succeeded no process that opens the set accepts anything made with the key, as long as no
    key with the same identifier is added. *)
Theorem C69_revoked : forall gen l f c A n k h e data enc dec xs y f2 ys c' B, tool_made gen l f ->
  exec (read_location c l) f = (f, Ok A) -> ring_of A n = Some (PRIMARY, k) -> key_hash_id k = Ok h -> paired enc dec ->
  Forall line_ok (xs ++ y :: ys) -> Forall (respects l) (xs ++ ys) -> Forall (fun x => ~ revokes l n x) xs ->
  revokes l n y -> exec (line_prog gen y) (run_lines gen xs f) = (f2, Ok tt) ->
  Forall (fun x => ~ uses_crypter l x) ys ->
  Forall (fun x => adds_key l x -> forall d ty z k', In d (ln_draws x) -> GenKey d ty z = Ok k' -> key_hash_id k' <> Ok h) ys ->
  let g := run_lines gen ys f2 in exec (read_location c' l) g = (g, Ok B) ->
  (forall ct, Encrypt e A data enc = Ok ct -> Decrypt B ct dec = Raise (KeyNotFoundError h)) /\
  (forall sig, Sign e A data enc = Ok sig -> Verify B data sig dec = Raise (KeyNotFoundError h)).
Proof.
  intros gen l f c A n k h e data enc dec xs y f2 ys c' B TM HA HR HH PC OK RS NR RV EX NC NG g HB.
  apply Forall_app in OK as [OK1 OK2]. pose proof (Forall_inv OK2) as [HAy _]. apply Forall_inv_tail in OK2. apply Forall_app in RS as [RS1 RS2].
  destruct (lines_life gen l f c A n PRIMARY k xs TM HA HR OK1 RS1 NR) as [LA HHA _ (name & p & a & t & HN & HI & EP & ET & PF & PG) (B1 & L1 & NB & PB & TB & DB & HB1)].
  destruct (plain_facts _ _ _ _ _ _ PG L1) as (N1 & N2 & N3). destruct RV as (C1 & C2 & v & C3 & C4).
  unfold line_prog in EX. rewrite C1 in EX. destruct (C50_runs gen (ln_args y) (ln_draws y) (ln_env y) HAy) as (H1 & _). destruct (H1 n v C3 C4) as (_ & _ & E3).
  rewrite E3, C2 in EX. assert (HN1 : text_ok (ks_name B1)) by (rewrite N1; exact HN).
  change (RevokeCmd (Some l) n (ln_env y)) with (kcmd_prog l (CmdRevoke n) (ln_env y)) in EX.
  destruct (C47_command l _ B1 (CmdRevoke n) _ f2 (Ok tt) L1 HN1 Logic.I EX) as [(_ & (B2 & r2 & L2 & M1 & M2 & M3 & RC & RE) & _)|((e0 & C) & _)]; [|discriminate].
  assert (P2 : all_plain f2 l name p t).
  { rewrite <- N1, <- N2, <- N3, <- M1, <- M2, <- M3. apply (loadable_plain f2 l B2 L2). apply (command_text l _ B1 (CmdRevoke n) _ f2 B2 L1 HN1 Logic.I EX L2). }
  destruct HB1 as (_ & _ & s1 & R1).
  destruct (lines_without gen l (Ok h) name p t HN ys f2 B2 P2 L2) as (B3 & L3 & NK); try assumption.
  { intros m s k' HM E. rewrite RE in HM. inversion RC as [| | |? ? _ RR]; subst. unfold ring_revoke in RR. rewrite R1 in RR.
    destruct s1; try discriminate. apply Some_inj in RR as <-. destruct (m =? n) eqn:EM; [discriminate|].
    assert (m = n) by (apply (DB _ _ _ _ _ _ HM R1); congruence). lia. }
  apply read_loadable in HB as [LB _]. fold g in L3. assert (B3 = B) as -> by (unfold loadable in L3, LB; congruence).
  pose proof (loadable_open _ _ _ LB) as OB. pose proof (made_open _ _ _ (loadable_open _ _ _ LA)) as MA.
  assert (NN : forall id k', Base64WSEncode id = h -> ~ named B [] id k').
  { intros id k' EI [(before & after & m & s & EB & HM) HK]. symmetry in EB. apply app_eq_nil in EB as [-> _]. cbn [run fold_left] in HM. apply (NK _ _ _ HM). congruence. }
  assert (SG : signer_of A k) by (split; [exact (made_reached _ MA) | exists n; exact HR]).
  split.
  - intros ct HE. assert (R : exists raw, Encrypt e A data None = Ok raw /\ Decrypt B ct dec = Decrypt B raw None).
    { destruct PC as [[-> ->]|[-> ->]]; [exists ct; auto|]. apply Encrypt_b64 in HE as (raw & HE & ->). exists raw. rewrite !Decrypt_b64. auto. }
    destruct R as (raw & HE' & ->). destruct (encrypt_shape e A data raw (made_reached _ MA) HE') as (n2 & k2 & id & rest & HR2 & HID & HLEN & HEk & ->).
    destruct (ring_one_primary A (made_inv _ MA) n n2 k k2 HR HR2) as [<- <-]. assert (Base64WSEncode id = h) as <- by congruence.
    apply (proj2 (C34_decrypt_dispatch _ _ _ [] OB) x00 id rest HLEN); [reflexivity | intros k'; apply NN; reflexivity].
  - intros sig HS. destruct (signer_primary A k SG) as (HP & id & HID & HLEN & HD). assert (Base64WSEncode id = h) as <- by congruence.
    assert (R : exists raw, Verify B data sig dec = Verify B data (x00 :: id ++ raw) None).
    { unfold Sign in HS. rewrite HP in HS. cbn [bind] in HS. rewrite HD in HS. cbn [bind] in HS. apply bind_Ok in HS as (s & E1 & HS).
      exists s. destruct PC as [[-> ->]|[-> ->]]; cbn [apply_codec b64_encoder] in HS; apply Ok_inj in HS as <-; [reflexivity|].
      unfold Verify. cbn [apply_codec b64_decoder]. rewrite base64_roundtrip. reflexivity. }
    destruct R as (raw & ->). apply (proj2 (C34_verify_dispatch _ _ _ [] OB) data x00 id raw HLEN); [reflexivity | intros k'; apply NN; reflexivity].
Qed.
Print Assumptions C69_revoked.

(** An RSA signing set at /k, its second key, its public set in /pub, and the revocation of the first key. *)
Definition at_k (cmd : string) (args : list arg) (ds : list draw) : line := MkLine (bs cmd) (Flag LOCATION (bs "/k") :: args) ds one_env.
Definition life_disk : disk := [(bs "/k", []); (bs "/pub", [])].
Definition rsa_draw : draw := MkDraw (fun _ => x00) demo_rsa_nums (MkDsaNums (MkDsaPubNums 0 0 0 0) 0).
Definition life_create := at_k "create" [Flag PURPOSE (bs "sign"); Flag ASYMMETRIC (bs "rsa")] [].
Definition life_add := at_k "addkey" [Flag STATUS (bs "primary"); Flag SIZE (bs "512")] [rsa_draw].
Definition life_rotate := at_k "addkey" [Flag STATUS (bs "primary")] [rsa_draw; zero_draw x01].
Definition life_demote := at_k "demote" [Flag VERSION_FLAG (bs "1")] [].
Definition life_export := at_k "pubkey" [Flag DESTINATION (bs "/pub")] [].
Definition life_revoke := at_k "revoke" [Flag VERSION_FLAG (bs "1")] [].
Definition life_start : disk := run_lines no_genkey [life_create; life_add] life_disk.
Example C69_case : tool_made no_genkey (bs "/k") life_start /\
  (exists A sig, exec (read_location Signer (bs "/k")) life_start = (life_start, Ok A) /\ ring_of A 1 = Some (PRIMARY, KRsaPriv Props_Asym.demo_rsa) /\ ks_type A <> HMAC_SHA1 /\
     signs_soundly (one_env 0) (KRsaPriv Props_Asym.demo_rsa) (bs "hello" ++ VERSION_BYTE) /\ Sign (one_env 0) A (bs "hello") b64_encoder = Ok sig) /\
  Forall line_ok [life_rotate; life_demote; life_export; life_revoke] /\ Forall (respects (bs "/k")) [life_rotate; life_demote; life_export; life_revoke] /\
  Forall (fun x => ~ revokes (bs "/k") 1 x) [life_rotate; life_demote; life_export] /\ exports (bs "/k") (bs "/pub") life_export /\ has_dir life_start (bs "/pub") = true /\
  leaves (bs "/pub") life_revoke /\ revokes (bs "/k") 1 life_revoke /\
  exists f2, exec (line_prog no_genkey life_revoke) (run_lines no_genkey [life_rotate; life_demote; life_export] life_start) = (f2, Ok tt).
Proof.
  assert (OK : Forall line_ok [life_create; life_add; life_rotate; life_demote; life_export; life_revoke]).
  { assert (N : rsa_nonneg demo_rsa_nums) by (unfold rsa_nonneg; vm_compute; intuition discriminate).
    repeat constructor; cbn [arg_ok no_eq]; try (unfold no_eq; vm_compute; intuition discriminate); cbn; lia. }
  pose proof OK as OK'. do 2 apply Forall_inv_tail in OK'.
  split; [|split; [|split; [exact OK'|]]].
  - exists life_disk, life_create, (fst (exec (line_prog no_genkey life_create) life_disk)), [life_add].
    split; [reflexivity|]. split; [reflexivity|]. split; [apply (Forall_inv OK)|]. split; [vm_compute; reflexivity|].
    split; [constructor; [apply (Forall_inv (Forall_inv_tail OK)) | constructor]|]. split; [constructor; [split; discriminate | constructor]|]. split; [constructor; [intros [_ C]; apply C; reflexivity | constructor] | unfold life_start; cbn [run_lines]; reflexivity].
  - assert (E : exists A, exec (read_location Signer (bs "/k")) life_start = (life_start, Ok A) /\ ring_of A 1 = Some (PRIMARY, KRsaPriv Props_Asym.demo_rsa) /\ ks_type A <> HMAC_SHA1).
    { eexists. split; [vm_compute; reflexivity|]. split; [vm_compute; reflexivity | discriminate]. }
    destruct E as (A & E1 & E2 & E3). exists A.
    assert (SG : signer_of A (KRsaPriv Props_Asym.demo_rsa)).
    { apply read_loadable in E1 as [L _]. split; [apply made_reached, (made_open _ _ _ (loadable_open _ _ _ L)) | exists 1; exact E2]. }
    assert (K : exists size, In size rsa_sizes /\ rsa_key_ok size Props_Asym.demo_rsa) by (exists 512; split; [apply C20_case | apply C19_case]).
    destruct (C35_signing_succeeds (one_env 0) A _ (bs "hello") SG) as (sig & HS); [right; left; destruct K as (size & K1 & K2); exists Props_Asym.demo_rsa, size; auto|].
    exists sig. auto.
  - split; [repeat constructor; discriminate|]. split; [repeat constructor; intros (C & _); discriminate C|]. split; [repeat constructor|]. split; [vm_compute; reflexivity|].
    split; [repeat split; discriminate|]. split; [split; [reflexivity|]; split; [reflexivity|]; exists (bs "1"); split; [reflexivity | apply C50_integers; vm_compute; reflexivity]|].
    eexists. vm_compute. reflexivity.
Qed.
