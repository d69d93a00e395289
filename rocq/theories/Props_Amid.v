(** * Props_Amid: property C81 (commands that run at the same time). *)
From Coq Require Import Strings.String.
From Coq Require Import List ZArith NArith Bool Lia ZifyBool ZifyNat ZifyN.
From Coq.Init Require Import Byte.
From Verif Require Import PyBase PyFacts Base64 Util Json JsonFacts JsonSpec JsonSpecFacts KeyInfo SymKeys AsymKeys Keys KeysFacts KeyData Keyczar KeyRing
  KeyczarFacts Props_Keyset Props_Keys Disk Keyczart DiskFacts CrashFacts Props_Disk Props_Tool Props_Cmd Props_Open Props_While.
Import ListNotations.
Local Open Scope Z_scope.
Ltac Zify.zify_post_hook ::= idtac.

(** ** Specification *)

(** [amid f p qs g r]: from the disk [f] the programs [qs] run, all at the same time, and with them
    [p], whose outcome is [r]; [g] is the disk when all are done.  The system calls interleave in any
    way; each happens at one moment. *)
Inductive amid {A} : disk -> prog A -> list (prog unit) -> disk -> res A -> Prop :=
| AmDone f r : amid f (Done r) [] f r
| AmThis f p f' p' qs g r : dstep f p = (f', p') -> amid f' p' qs g r -> amid f p qs g r
| AmOther f p qs q qs' f' q' g r : dstep f q = (f', q') -> amid f' p (qs ++ q' :: qs') g r -> amid f p (qs ++ q :: qs') g r
| AmEnds f p qs x qs' g r : amid f p (qs ++ qs') g r -> amid f p (qs ++ Done x :: qs') g r.

(** A key that one of the commands generates. *)
Definition generated (t : ktype) (cs : list command) (k : key) : Prop :=
  exists s size ds es d, In (CmdAddKey s size ds, es) cs /\ In d ds /\ GenKey d t (Some (size_of t size)) = Ok k.

(** ** Invariants of programs *)

(** Whatever [p] does keeps [P], as long as the others keep it. *)
Fixpoint keeps {A} (P : disk -> Prop) (p : prog A) : Prop :=
  match p with
  | Done _ => True
  | Read l n k => forall f, P f -> keeps P (k (file f l n))
  | IsDir l k => forall f, P f -> keeps P (k (has_dir f l))
  | IsFile l n k => forall f, P f -> keeps P (k (match file f l n with Some _ => true | None => false end))
  | OpenW l n k => (forall f, P f -> has_dir f l = true -> P (set_file f l n [])) /\ forall b, keeps P (k b)
  | Write l n d k => (forall f, P f -> P (put f l n d)) /\ keeps P k
  | Remove l n k => (forall f, P f -> P (del_file f l n)) /\ forall b, keeps P (k b)
  | List l k => forall f, P f -> keeps P (k (match assoc str_eqb f l with Some d => Some (map fst d) | None => None end))
  end.

Lemma keeps_step {A} (P : disk -> Prop) (p : prog A) f f' p' : keeps P p -> P f -> dstep f p = (f', p') -> P f' /\ keeps P p'.
Proof.
  destruct p as [r|l n k|l k|l n k|l n k|l n d k|l n k|l k]; cbn [keeps dstep]; intros K HP H; try (apply pair_inj in H as [<- <-]; split; [exact HP | try exact Logic.I; apply (K f HP)]).
  - destruct (has_dir f l) eqn:HD; apply pair_inj in H as [<- <-]; (split; [|apply K]); [apply (proj1 K f HP HD) | exact HP].
  - apply pair_inj in H as [<- <-]. split; [apply (proj1 K f HP) | apply K].
  - destruct (file f l n) eqn:HF; apply pair_inj in H as [<- <-]; (split; [|apply K]); [apply (proj1 K f HP) | exact HP].
Qed.

Lemma amid_keeps {A} (P : disk -> Prop) f (p : prog A) qs g r : amid f p qs g r -> P f -> reads p -> Forall (keeps P) qs -> P g /\ seen P p r.
Proof.
  intros H. induction H as [f r|f p f' p' qs g r HS H IH|f p qs q qs' f' q' g r HS H IH|f p qs x qs' g r H IH]; intros HP R K.
  - split; [exact HP | constructor].
  - destruct (reads_dstep _ _ _ _ R HS) as [-> R']. destruct (IH HP R' K) as [HG S]. split; [exact HG | apply (SeenStep P p f f p' r HP HS S)].
  - apply Forall_app in K as [K1 K2]. inversion K2 as [|? ? K3 K4]; subst. destruct (keeps_step P q f f' q' K3 HP HS) as [HP' K'].
    apply IH; [exact HP' | exact R|]. apply Forall_app. split; [exact K1 | constructor; assumption].
  - apply Forall_app in K as [K1 K2]. inversion K2; subst. apply IH; [exact HP | exact R | apply Forall_app; split; assumption].
Qed.

Lemma keeps_bind {A B} P (p : prog A) (q : A -> prog B) : reads p -> (forall a, seen P p (Ok a) -> keeps P (q a)) -> keeps P (pbind p q).
Proof.
  induction p as [[a|e]|l n k IH|l k IH|l n k IH|l n k IH|l n d k IH|l n k IH|l k IH]; cbn [reads pbind keeps]; intros R H; try contradiction.
  - apply H. constructor.
  - exact Logic.I.
  - intros f HP. apply IH; [apply R|]. intros a S. apply H. apply (SeenStep P (Read l n k) f f _ _ HP eq_refl S).
  - intros f HP. apply IH; [apply R|]. intros a S. apply H. apply (SeenStep P (IsDir l k) f f _ _ HP eq_refl S).
  - intros f HP. apply IH; [apply R|]. intros a S. apply H. apply (SeenStep P (IsFile l n k) f f _ _ HP eq_refl S).
  - intros f HP. apply IH; [apply R|]. intros a S. apply H. apply (SeenStep P (List l k) f f _ _ HP eq_refl S).
Qed.
Lemma keeps_seq {A B} P (p : prog A) (q : A -> prog B) : keeps P p -> (forall a, keeps P (q a)) -> keeps P (pbind p q).
Proof.
  induction p as [[a|e]|l n k IH|l k IH|l n k IH|l n k IH|l n d k IH|l n k IH|l k IH]; cbn [pbind keeps]; intros K H; try exact Logic.I; try (apply H);
    try (intros f HP; apply IH; [apply (K f HP) | exact H]); try (split; [apply K | intros b; apply IH; [apply K | exact H]]).
  split; [apply K | apply IH; [apply K | exact H]].
Qed.

Lemma keeps_WriteFile (P : disk -> Prop) d l n : (forall f, P f -> has_dir f l = true -> P (set_file f l n [])) -> (forall f, P f -> P (put f l n d)) -> keeps P (WriteFile d l n).
Proof. intros H1 H2. split; [exact H1|]. intros [|]; cbn [keeps]; auto. Qed.

(** ** A complete text with something behind it *)

Lemma loads_tail s t o : loads s = Ok (JObj o) -> ws t -> loads (s ++ t) = Ok (JObj o).
Proof.
  intros H W. apply loads_grammar in H as (a & x & b & -> & HA & HV & HB). apply loads_grammar. exists a, x, (b ++ t).
  split; [rewrite <- !app_assoc; reflexivity|]. split; [exact HA|]. split; [exact HV|]. apply Forall_app. split; assumption.
Qed.
Lemma overlay s t o o' : loads s = Ok (JObj o) -> loads (s ++ t) = Ok (JObj o') -> loads (s ++ t) = loads s.
Proof. intros H1 H2. rewrite H1. apply loads_tail; [exact H1 | apply (cut_object _ _ _ _ H1 H2)]. Qed.
Lemma ReadKey_loads t s s' : loads s = loads s' -> ReadKey t s = ReadKey t s'.
Proof.
  intros E. unfold ReadKey. destruct t; unfold AesKey_Read, HmacKey_Read, DsaPublicKey_Read, DsaPrivateKey_Read, RsaPublicKey_Read, RsaPrivateKey_Read; rewrite E; reflexivity.
Qed.
Lemma meta_Read_loads s s' : loads s = loads s' -> meta_Read s = meta_Read s'.
Proof. intros E. unfold meta_Read. rewrite E. reflexivity. Qed.

Lemma overlay_key t s x k k' : ReadKey t s = Ok k -> ReadKey t (s ++ x) = Ok k' -> k' = k.
Proof.
  intros H1 H2. destruct (key_object _ _ _ H1) as (o & E1). destruct (key_object _ _ _ H2) as (o' & E2).
  rewrite (ReadKey_loads t _ _ (overlay _ _ _ _ E1 E2)), H1 in H2. apply Ok_inj in H2 as <-. reflexivity.
Qed.
Lemma overlay_meta s x m m' : meta_Read s = Ok m -> meta_Read (s ++ x) = Ok m' -> m' = m.
Proof.
  intros H1 H2. destruct (meta_object _ _ H1) as (o & E1). destruct (meta_object _ _ H2) as (o' & E2).
  rewrite (meta_Read_loads _ _ (overlay _ _ _ _ E1 E2)), H1 in H2. apply Ok_inj in H2 as <-. reflexivity.
Qed.

(** ** What is on the disk while commands run *)

(** The versions that no command revokes. *)
Definition staying (ks : keyset) (cs : list command) (n : Z) : Prop := ring_of ks n <> None /\ forall es, ~ In (CmdRevoke n, es) cs.

Definition proper (ks : keyset) (cs : list command) (n : Z) (k : key) : Prop :=
  (exists s, ring_of ks n = Some (s, k)) \/ (~ staying ks cs n /\ generated (ks_type ks) cs k).

Definition sound (f0 : disk) (l : str) (ks : keyset) (cs : list command) (f : disk) : Prop :=
  (forall s m, file f l meta_file = Some s -> meta_Read s = Ok m ->
     m_name m = ks_name ks /\ m_purpose m = ks_purpose ks /\ m_type m = ks_type ks /\ forall n, staying ks cs n -> assoc Z.eqb (m_versions m) n <> None) /\
  (forall n x k, file f l (key_file n) = Some x -> ReadKey (ks_type ks) x = Ok k -> proper ks cs n k) /\
  (forall l', has_dir f l' = has_dir f0 l') /\
  (forall l' n, l' <> l \/ n <> meta_file /\ (forall m, n <> key_file m) -> file f l' n = file f0 l' n).

Lemma sound_now f l ks cs : loadable f l ks -> tidy f l ks -> sound f l ks cs f.
Proof.
  intros HL HT. pose proof (loadable_open _ _ _ HL) as HO. pose proof (inv_open _ _ _ HO) as I. split; [|split; [|split; reflexivity]].
  - intros s m HF HR. pose proof HO as HO'. apply open_ok in HO' as (s0 & m0 & ls & EM & ER & _ & _ & _ & EN & EP & ET & _). cbn [file_reader rd_meta] in EM. rewrite HF in EM. apply Ok_inj in EM as <-.
    rewrite HR in ER. apply Ok_inj in ER as <-. split; [congruence|]. split; [congruence|]. split; [congruence|]. intros n [SN _] C.
    apply SN. assert (A1 : rd_meta (file_reader f l) = Ok s) by (cbn [file_reader rd_meta]; rewrite HF; reflexivity). rewrite (open_ring _ _ _ _ _ HO A1 HR n), C. reflexivity.
  - intros n x k HF HR. left. destruct (ring_of ks n) as [[s k0]|] eqn:E; [|rewrite (HT n E) in HF; discriminate]. destruct (opened_files _ l f ks n s k0 HO E) as (x0 & F & RK & _).
    rewrite HF in F. apply Some_inj in F as <-. rewrite HR in RK. apply Ok_inj in RK as <-. eexists. reflexivity.
Qed.

(** A set loaded at such moments. *)
Definition good (ks : keyset) (cs : list command) (ks1 : keyset) : Prop :=
  ks_name ks1 = ks_name ks /\ ks_purpose ks1 = ks_purpose ks /\ ks_type ks1 = ks_type ks /\
  (forall n, staying ks cs n -> ring_of ks1 n <> None) /\ forall n s k, ring_of ks1 n = Some (s, k) -> proper ks cs n k.

Lemma good_open f0 l ks cs cl ks1 : loadable f0 l ks -> tidy f0 l ks -> seen (sound f0 l ks cs) (open_files cl l None) (Ok ks1) ->
  good ks cs ks1 /\ exists rd, open_keyset cl rd = Ok ks1.
Proof.
  intros HL HT S. destruct (seen_open _ cl l f0 _ (sound_now _ _ _ cs HL HT) S) as (rd & HO & (f & (SM & _) & EM) & HK). split; [|exists rd; exact HO].
  pose proof HO as HO'. apply open_ok in HO' as (s0 & m0 & ls & EM0 & ER & _ & _ & _ & EN & EP & ET & _). rewrite EM in EM0. destruct (file f l meta_file) as [s|] eqn:HF; [|discriminate].
  cbn [answer] in EM, EM0. apply Ok_inj in EM0 as <-. destruct (SM s m0 eq_refl ER) as (A1 & A2 & A3 & A4). split; [congruence|]. split; [congruence|]. split; [congruence|]. split.
  - intros n SN. specialize (A4 n SN). destruct (assoc Z.eqb (m_versions m0) n) as [v|] eqn:EA; [|congruence]. intros C.
    destruct (open_ok _ _ _ HO) as (s3 & m3 & l3 & C1 & C2 & _ & _ & _ & _ & _ & _ & _ & CO & CM & _). rewrite EM in C1. apply Ok_inj in C1 as <-. rewrite ER in C2. apply Ok_inj in C2 as <-.
    pose proof (assoc_combine_nums (m_versions m0) n 0) as AC. rewrite EA in AC. destruct AC as (i & AC & _).
    assert (K : assoc Z.eqb (ks_mvers ks1) n = Some (0 + i)%nat) by (rewrite CM; unfold meta_versions; rewrite map_length; exact AC).
    destruct (ring_known ks1 n _ (inv_open _ _ _ HO) K) as (k & _ & C'). congruence.
  - intros n s' k HR. rewrite (open_ring _ _ _ _ _ HO EM ER n) in HR. destruct (assoc Z.eqb (m_versions m0) n) as [v|]; [|discriminate].
    destruct (HK n) as (h & (_ & SK & _) & EK). rewrite EK in HR. destruct (file h l (key_file n)) as [x|] eqn:HX; cbn [answer bind] in HR; [|discriminate].
    destruct (ReadKey (m_type m0) x) as [k0|] eqn:RK; [|discriminate]. apply Some_inj, pair_inj in HR as [_ <-]. rewrite A3 in RK. apply (SK n x k0 HX RK).
Qed.

(** ... and changed by one of the commands. *)
Lemma good_ring ks cs ks1 c es r' : good ks cs ks1 -> In (c, es) cs -> ring_cmd (ks_type ks1) (ring_of ks1) c r' ->
  (forall n, staying ks cs n -> r' n <> None) /\ forall n s k, r' n = Some (s, k) -> proper ks cs n k.
Proof.
  intros (_ & _ & ET & G1 & G2) HI RC. split.
  - intros n SN. pose proof (G1 n SN) as H1. destruct (ring_of ks1 n) as [[s k]|] eqn:E; [|congruence].
    destruct (ring_cmd_kept _ _ _ _ n s k RC E) as (s' & ->); [|discriminate]. intros m -> ->. apply (proj2 SN es HI).
  - destruct RC as [s0 size ds d m k0 A1 A2 A3 A4 A5|m r' A1 A2|m r' A1 A2|m r' A1 A2]; intros n s k E.
    + unfold ring_add in E. destruct (n =? m) eqn:EN.
      * apply Some_inj, pair_inj in E as [_ <-]. apply Z.eqb_eq in EN as ->. right. split.
        -- intros SN. pose proof (G1 m SN) as H1. destruct (ring_of ks1 m) as [x|] eqn:E; [|congruence]. apply (proj1 (proj2 A4)) in E. lia.
        -- exists s0, size, ds, es, d. split; [exact HI|]. split; [exact A2|]. rewrite <- ET. exact A3.
      * destruct (ring_of ks1 n) as [[s1 k1]|] eqn:E1; [|destruct s0; discriminate].
        assert (k = k1) as -> by (destruct s0; try (apply Some_inj, pair_inj in E as [_ <-]; reflexivity); destruct s1; apply Some_inj, pair_inj in E as [_ <-]; reflexivity). apply (G2 _ _ _ E1).
    + unfold ring_promote in A2. destruct (ring_of ks1 m) as [[st k1]|] eqn:EM; [|discriminate].
      assert (k1' : exists s2, ring_of ks1 n = Some (s2, k)); [|destruct k1' as (s2 & R); apply (G2 _ _ _ R)].
      destruct st; try discriminate; apply Some_inj in A2 as <-; cbn in E; (destruct (n =? m) eqn:EN;
        [apply Z.eqb_eq in EN as ->; apply Some_inj, pair_inj in E as [_ <-]; eexists; exact EM|]); destruct (ring_of ks1 n) as [[s1 k2]|]; try discriminate;
        destruct s1; apply Some_inj, pair_inj in E as [_ <-]; eexists; reflexivity.
    + unfold ring_demote in A2. destruct (ring_of ks1 m) as [[st k1]|] eqn:EM; [|discriminate].
      assert (k1' : exists s2, ring_of ks1 n = Some (s2, k)); [|destruct k1' as (s2 & R); apply (G2 _ _ _ R)].
      destruct st; try discriminate; apply Some_inj in A2 as <-; cbn in E; (destruct (n =? m) eqn:EN;
        [apply Z.eqb_eq in EN as ->; apply Some_inj, pair_inj in E as [_ <-]; eexists; exact EM|]); eexists; exact E.
    + unfold ring_revoke in A2. destruct (ring_of ks1 m) as [[[] k1]|]; try discriminate. apply Some_inj in A2 as <-. cbn in E. destruct (n =? m); [discriminate|]. apply (G2 _ _ _ E).
Qed.

(** The ring after a step that succeeds. *)
Lemma step_ring cl rd ks c ks' : open_keyset cl rd = Ok ks -> kcmd_ok c -> (forall n, In c [CmdPromote n; CmdDemote n; CmdRevoke n] -> 0 <= n) ->
  step ks (op_of c) = (ks', Ok tt) -> exists r', ring_cmd (ks_type ks) (ring_of ks) c r' /\ forall n, ring_of ks' n = r' n.
Proof.
  intros HO HC H0 ES. pose proof (fun n => C28_promote_demote_revoke _ _ ks [] n HO) as CP. cbn [run fold_left] in CP.
  destruct c as [s size ds|n|n|n]; cbn [op_of step] in ES.
  - destruct (add_loaded _ _ ks ds s size HO HC) as [(ks2 & r' & EA & RC & RE)|(ks2 & e & EA & _)]; rewrite ES in EA; apply pair_inj in EA as [<- EA]; [|discriminate].
    exists r'. split; assumption.
  - destruct (CP n) as (DP & _). unfold does in DP. destruct (ring_promote (ring_of ks) n) as [r'|] eqn:ER; rewrite ES in DP; [|discriminate]. cbn [fst snd] in DP.
    exists r'. split; [apply RingPromote; [apply H0; left; reflexivity | exact ER] | apply DP].
  - destruct (CP n) as (_ & DP & _). unfold does in DP. destruct (ring_demote (ring_of ks) n) as [r'|] eqn:ER; rewrite ES in DP; [|discriminate]. cbn [fst snd] in DP.
    exists r'. split; [apply RingDemote; [apply H0; right; left; reflexivity | exact ER] | apply DP].
  - destruct (CP n) as (_ & _ & DP). unfold does in DP. destruct (ring_revoke (ring_of ks) n) as [r'|] eqn:ER; rewrite ES in DP; [|discriminate]. cbn [fst snd] in DP.
    exists r'. split; [apply RingRevoke; [apply H0; right; right; left; reflexivity | exact ER] | apply DP].
Qed.

Section Commands.
  Variables (f0 : disk) (l : str) (ks : keyset) (cs : list command).
  Hypotheses (HL : loadable f0 l ks) (HT : tidy f0 l ks) (HN : text_ok (ks_name ks)) (HC : Forall (fun c => kcmd_ok (fst c)) cs).
  Let P := sound f0 l ks cs.

  Lemma sound_files f f' : (forall l', has_dir f' l' = has_dir f l') -> P f ->
    (forall s m, file f' l meta_file = Some s -> file f l meta_file = Some s \/ (meta_Read s = Ok m ->
       m_name m = ks_name ks /\ m_purpose m = ks_purpose ks /\ m_type m = ks_type ks /\ forall n, staying ks cs n -> assoc Z.eqb (m_versions m) n <> None)) ->
    (forall n x k, file f' l (key_file n) = Some x -> file f l (key_file n) = Some x \/ (ReadKey (ks_type ks) x = Ok k -> proper ks cs n k)) ->
    (forall l' n, l' <> l \/ n <> meta_file /\ (forall m, n <> key_file m) -> file f' l' n = file f l' n) -> P f'.
  Proof.
    intros HD (A & B & C & D) HM HK HO. split; [|split; [|split]].
    - intros s m HF HR. destruct (HM s m HF) as [E|E]; [apply (A s m E HR) | apply (E HR)].
    - intros n x k HF HR. destruct (HK n x k HF) as [E|E]; [apply (B n x k E HR) | apply (E HR)].
    - intros l'. rewrite HD. apply C.
    - intros l' n H. rewrite HO by exact H. apply D, H.
  Qed.

  Lemma sound_opened n f : (n = meta_file \/ exists m, n = key_file m) -> P f -> has_dir f l = true -> P (set_file f l n []).
  Proof.
    intros Hn HP HD. apply (sound_files f); [intros; apply has_dir_set | exact HP | | |].
    - intros s m HF. rewrite file_set in HF by exact HD. destruct (str_eqb l l && str_eqb n meta_file); [right | left; exact HF]. apply Some_inj in HF as <-. discriminate.
    - intros m x k HF. rewrite file_set in HF by exact HD. destruct (str_eqb l l && str_eqb n (key_file m)); [right | left; exact HF]. apply Some_inj in HF as <-.
      destruct (ks_type ks); discriminate.
    - intros l' n' H. rewrite file_set by exact HD. destruct H as [H|[H1 H2]]; [rewrite (str_eqb_neq l l') by congruence; reflexivity|].
      assert (n <> n') as NE by (destruct Hn as [->|(m & ->)]; [congruence | intros E; apply (H2 m); congruence]). rewrite (str_eqb_neq n n' NE), andb_false_r. reflexivity.
  Qed.
  Lemma sound_removed m f : P f -> P (del_file f l (key_file m)).
  Proof.
    intros HP. apply (sound_files f); [intros; apply has_dir_del | exact HP | | |].
    - intros s m' HF. rewrite file_del in HF. destruct (str_eqb l l && _); [discriminate | left; exact HF].
    - intros m' x k HF. rewrite file_del in HF. destruct (str_eqb l l && _); [discriminate | left; exact HF].
    - intros l' n' H. rewrite file_del. destruct H as [H|[H1 H2]]; [rewrite (str_eqb_neq l l') by congruence; reflexivity|].
      rewrite (str_eqb_neq (key_file m) n'), andb_false_r by (intros E; apply (H2 m); congruence). reflexivity.
  Qed.
  Lemma sound_meta d f m : meta_Read d = Ok m -> m_name m = ks_name ks -> m_purpose m = ks_purpose ks -> m_type m = ks_type ks ->
    (forall n, staying ks cs n -> assoc Z.eqb (m_versions m) n <> None) -> P f -> P (put f l meta_file d).
  Proof.
    intros HR E1 E2 E3 E4 HP. apply (sound_files f); [intros; apply has_dir_put | exact HP | | |].
    - intros s m' HF. rewrite file_put, !str_eqb_refl in HF. cbn [andb] in HF. destruct (file f l meta_file) as [old|]; [|discriminate]. right. apply Some_inj in HF as <-.
      intros HR'. rewrite (overlay_meta _ _ _ _ HR HR'). split; [exact E1|]. split; [exact E2|]. split; assumption.
    - intros n x k HF. rewrite file_put, meta_key_eqb, andb_false_r in HF. left. exact HF.
    - intros l' n' H. rewrite file_put. destruct H as [H|[H1 H2]]; [rewrite (str_eqb_neq l l') by congruence; reflexivity|].
      rewrite (str_eqb_neq meta_file n'), andb_false_r by congruence. reflexivity.
  Qed.
  Lemma sound_key d f n k : ReadKey (ks_type ks) d = Ok k -> proper ks cs n k -> P f -> P (put f l (key_file n) d).
  Proof.
    intros HR HK HP. apply (sound_files f); [intros; apply has_dir_put | exact HP | | |].
    - intros s m' HF. rewrite file_put, key_meta_eqb, andb_false_r in HF. left. exact HF.
    - intros m x k' HF. rewrite file_put, str_eqb_refl, key_file_eqb in HF. cbn [andb] in HF. destruct (n =? m) eqn:E; [|left; exact HF]. apply Z.eqb_eq in E as <-.
      destruct (file f l (key_file n)) as [old|]; [|discriminate]. right. apply Some_inj in HF as <-. intros HR'. rewrite (overlay_key _ _ _ _ _ HR HR'). exact HK.
    - intros l' n' H. rewrite file_put. destruct H as [H|[H1 H2]]; [rewrite (str_eqb_neq l l') by congruence; reflexivity|].
      rewrite (str_eqb_neq (key_file n) n'), andb_false_r by (intros E; apply (H2 n); congruence). reflexivity.
  Qed.

  (** Writing back a set that was loaded at such moments and changed. *)
  Lemma keeps_update cl rd ks1 c es ks2 es' : open_keyset cl rd = Ok ks1 -> good ks cs ks1 -> In (c, es) cs ->
    (forall n, In c [CmdPromote n; CmdDemote n; CmdRevoke n] -> 0 <= n) -> step ks1 (op_of c) = (ks2, Ok tt) -> keeps P (UpdateGenericKeyczar ks2 (Some l) None es').
  Proof.
    intros HO HG HI H0 ES. assert (HCc : kcmd_ok c) by (rewrite Forall_forall in HC; apply (HC _ HI)).
    destruct (step_ring _ _ _ _ _ HO HCc H0 ES) as (r' & RC & RE). destruct (good_ring ks cs ks1 c es r' HG HI RC) as [R1 R2].
    pose proof (inv_open _ _ _ HO) as I1. assert (I2 : inv ks2) by (change ks2 with (fst (ks2, Ok tt)); rewrite <- ES; apply inv_step, I1).
    destruct (name_step ks1 (op_of c) I1) as (N1 & N2 & N3 & _). rewrite ES in N1, N2, N3. cbn [fst] in N1, N2, N3.
    assert (W2 : keys_wf ks2).
    { change ks2 with (fst (ks2, Ok tt)). rewrite <- ES. apply keys_wf_step; [exact I1 | apply (keys_wf_open _ _ _ HO) | destruct c; exact HCc || exact Logic.I]. }
    destruct HG as (G1 & G2 & G3 & G4 & G5).
    assert (KEYS : forall o k, In (o, k) (ks_vkeys ks2) -> proper ks cs (v_num (deref (ks_objs ks2) o)) k /\ ReadKey (ks_type ks) (dumps (key_json k)) = Ok k).
    { intros o k Hk. split.
      - destruct (written_keys _ _ _ _ _ o k HO ES Hk) as [(s & R)|(s & R)]; [apply (G5 _ _ _ R)|]. rewrite RE in R. apply (R2 _ _ _ R).
      - replace (ks_type ks) with (key_type k) by (rewrite (inv_type ks2 I2 o k Hk); congruence). apply key_rt. apply (proj1 (Forall_forall _ _) W2 (o, k) Hk). }
    unfold UpdateGenericKeyczar. apply keeps_bind; [apply reads_writer|]. intros _ _. unfold WriteSet. apply keeps_seq.
    - unfold WriteMetadata, pure. rewrite meta_str_eq. cbn [pbind]. apply keeps_WriteFile; [intros f; apply sound_opened; left; reflexivity|].
      intros f. apply (sound_meta _ _ (ks_meta (written ks2 None))).
      + apply meta_rt; [apply (ks_meta_wf (written ks2 None)); destruct I2; constructor; assumption| |rewrite meta_str_eq; reflexivity]. cbn. rewrite N1, G1. exact HN.
      + cbn. congruence.
      + cbn. congruence.
      + cbn. congruence.
      + intros n SN. change (m_versions (ks_meta (written ks2 None))) with (map (fun p => (fst p, deref (ks_objs ks2) (snd p))) (ks_mvers ks2)). specialize (R1 n SN). rewrite <- RE in R1. unfold ring_of in R1. destruct (assoc Z.eqb (ks_mvers ks2) n) as [o|] eqn:EA; [|congruence].
        intros C. apply assoc_In in EA; [|exact Z.eqb_eq]. apply (in_map (fun p => (fst p, deref (ks_objs ks2) (snd p)))) in EA. cbn [fst snd] in EA.
        rewrite (assoc_NoDup Z.eqb_eq) with (2 := EA) in C; [discriminate|]. rewrite map_map. cbn [fst]. apply (inv_mkeys ks2 I2).
    - intros _. revert KEYS W2. unfold keys_wf. generalize 0%nat. generalize (ks_vkeys ks2) as vk. induction vk as [|[o k] vk IH]; intros i KEYS W; cbn [write_keys]; [exact Logic.I|].
      apply keeps_seq; [|intros _; apply IH; [intros o' k' H; apply KEYS; right; exact H | apply (Forall_inv_tail W)]].
      unfold WriteKey, pure. rewrite (key_str_eq k (Forall_inv W)). cbn [pbind]. destruct (KEYS o k (or_introl eq_refl)) as [K1 K2].
      apply keeps_WriteFile; [intros f; apply sound_opened; right; eexists; reflexivity | intros f; apply (sound_key _ _ _ k K2 K1)].
  Qed.

  Lemma keeps_change change op : (forall k n, change k n = step k (op n)) -> forall c n es es', (op_of c = op n) ->
    In (c, es) cs -> (forall m, In c [CmdPromote m; CmdDemote m; CmdRevoke m] -> m = n) -> keeps P (ChangeCmd change (Some l) n es').
  Proof.
    intros EC c n es es' EO HI EM. unfold ChangeCmd, CreateGenericKeyczar. apply keeps_bind; [apply reads_generic with (loc := Some l)|]. intros ks1 S.
    apply seen_bind in S as [(w & _ & S)|(e & _ & S)]; [|discriminate|apply reads_reader].
    destruct (good_open f0 l ks cs _ _ HL HT S) as (G & rd & HO). destruct (n <? 0) eqn:E0; [exact Logic.I|]. rewrite EC, <- EO.
    destruct (step ks1 (op_of c)) as [ks2 r] eqn:ES. unfold pure. destruct r as [[]|e]; cbn [pbind]; [|exact Logic.I].
    apply (keeps_update _ _ ks1 c es ks2 es' HO G HI); [|exact ES]. intros m H. apply EM in H as ->. lia.
  Qed.

  Lemma keeps_command c es : In (c, es) cs -> keeps P (kcmd_prog l c es).
  Proof.
    intros HI. destruct c as [s size ds|n|n|n]; cbn [kcmd_prog].
    - unfold AddKeyCmd, CreateGenericKeyczar. apply keeps_bind; [apply reads_generic with (loc := Some l)|]. intros ks1 S.
      apply seen_bind in S as [(w & _ & S)|(e & _ & S)]; [|discriminate|apply reads_reader].
      destruct (good_open f0 l ks cs _ _ HL HT S) as (G & rd & HO). destruct (AddVersion ks1 ds s _) as [ks2 r] eqn:ES. unfold pure. destruct r as [[]|e]; cbn [pbind]; [|exact Logic.I].
      apply (keeps_update _ _ ks1 (CmdAddKey s size ds) es ks2 es HO G HI); [|exact ES]. intros m [H|[H|[H|[]]]]; discriminate.
    - apply (keeps_change Promote OpPromote (fun _ _ => eq_refl) (CmdPromote n) n es); [reflexivity | exact HI|]. intros m [H|[H|[H|[]]]]; congruence.
    - apply (keeps_change Demote OpDemote (fun _ _ => eq_refl) (CmdDemote n) n es); [reflexivity | exact HI|]. intros m [H|[H|[H|[]]]]; congruence.
    - unfold RevokeCmd. apply keeps_seq.
      + apply (keeps_change Revoke OpRevoke (fun _ _ => eq_refl) (CmdRevoke n) n es); [reflexivity | exact HI|]. intros m [H|[H|[H|[]]]]; congruence.
      + intros _. apply keeps_bind; [apply reads_writer|]. intros _ _. split; [intros f; apply sound_removed | intros [|]; exact Logic.I].
  Qed.
End Commands.

(** ** C81 *)

Lemma good_spec ks cs ks' : good ks cs ks' ->
  ks_name ks' = ks_name ks /\ ks_purpose ks' = ks_purpose ks /\ ks_type ks' = ks_type ks /\
  (forall n s k, ring_of ks n = Some (s, k) -> (forall es, ~ In (CmdRevoke n, es) cs) -> exists s', ring_of ks' n = Some (s', k)) /\
  (forall n s' k', ring_of ks' n = Some (s', k') -> (exists s, ring_of ks n = Some (s, k')) \/ generated (ks_type ks) cs k').
Proof.
  intros (A & B & C & D & E). split; [exact A|]. split; [exact B|]. split; [exact C|]. split.
  - intros n s k R NR. assert (SN : staying ks cs n) by (split; [congruence | exact NR]). pose proof (D n SN) as H. destruct (ring_of ks' n) as [[s' k']|] eqn:R'; [|congruence].
    exists s'. destruct (E n s' k' R') as [(s2 & R2)|[NS _]]; [congruence | contradiction].
  - intros n s' k' R. destruct (E n s' k' R) as [H|[_ H]]; [left | right]; exact H.
Qed.

(** Any number of commands run at the same time at one location, in any interleaving, and a process
    opens the set meanwhile.  If it gets a set at all: the set has its name, purpose and type; every
    version that no command revokes is there, with its key; and the key of every version is the one
    that number had before or one that a command generated.  Missing: it may get an error, below. *)
Theorem C81_opened_partial : forall cl l f ks cs g ks', loadable f l ks -> text_ok (ks_name ks) -> tidy f l ks -> Forall (fun c => kcmd_ok (fst c)) cs ->
  amid f (open_files cl l None) (map (command_prog l) cs) g (Ok ks') ->
  ks_name ks' = ks_name ks /\ ks_purpose ks' = ks_purpose ks /\ ks_type ks' = ks_type ks /\
  (forall n s k, ring_of ks n = Some (s, k) -> (forall es, ~ In (CmdRevoke n, es) cs) -> exists s', ring_of ks' n = Some (s', k)) /\
  (forall n s' k', ring_of ks' n = Some (s', k') -> (exists s, ring_of ks n = Some (s, k')) \/ generated (ks_type ks) cs k').
Proof.
  intros cl l f ks cs g ks' HL HN HT HC H. apply good_spec.
  destruct (amid_keeps (sound f l ks cs) _ _ _ _ _ H (sound_now _ _ _ cs HL HT) (reads_open cl l None)) as [_ S].
  { apply Forall_map, Forall_forall. intros [c es] HI. apply (keeps_command f l ks cs HL HT HN HC c es HI). }
  apply (good_open f l ks cs cl ks' HL HT S).
Qed.
Print Assumptions C81_opened_partial.

(** The same for the set that is on the disk when all commands are done. *)
Theorem C81_final_partial : forall cl l f ks cs g ks', loadable f l ks -> text_ok (ks_name ks) -> tidy f l ks -> Forall (fun c => kcmd_ok (fst c)) cs ->
  amid f (Done (Ok tt)) (map (command_prog l) cs) g (Ok tt) -> exec (open_files cl l None) g = (g, Ok ks') ->
  ks_name ks' = ks_name ks /\ ks_purpose ks' = ks_purpose ks /\ ks_type ks' = ks_type ks /\
  (forall n s k, ring_of ks n = Some (s, k) -> (forall es, ~ In (CmdRevoke n, es) cs) -> exists s', ring_of ks' n = Some (s', k)) /\
  (forall n s' k', ring_of ks' n = Some (s', k') -> (exists s, ring_of ks n = Some (s, k')) \/ generated (ks_type ks) cs k').
Proof.
  intros cl l f ks cs g ks' HL HN HT HC H HX. apply good_spec.
  destruct (amid_keeps (sound f l ks cs) _ _ _ _ _ H (sound_now _ _ _ cs HL HT) Logic.I) as [HG _].
  { apply Forall_map, Forall_forall. intros [c es] HI. apply (keeps_command f l ks cs HL HT HN HC c es HI). }
  assert (S : seen (sound f l ks cs) (open_files cl l None) (Ok ks')).
  { revert HX. pose proof (reads_open cl l None) as R. revert R. generalize (open_files cl l None) as p. clear -HG.
    induction p as [r|l' n k IH|l' k IH|l' n k IH|l' n k IH|l' n d k IH|l' n k IH|l' k IH]; cbn [reads exec]; intros R HX; try contradiction.
    - apply pair_inj in HX as [_ ->]. constructor.
    - eapply SeenStep; [exact HG | reflexivity | apply (IH _ (R _) HX)].
    - eapply SeenStep; [exact HG | reflexivity | apply (IH _ (R _) HX)].
    - eapply SeenStep; [exact HG | reflexivity | apply (IH _ (R _) HX)].
    - eapply SeenStep; [exact HG | reflexivity | apply (IH _ (R _) HX)]. }
  apply (good_open f l ks cs cl ks' HL HT S).
Qed.
Print Assumptions C81_final_partial.

(** Nothing else is touched, whether or not the commands succeed. *)
Theorem C81_elsewhere : forall l f ks cs g, loadable f l ks -> text_ok (ks_name ks) -> tidy f l ks -> Forall (fun c => kcmd_ok (fst c)) cs ->
  amid f (Done (Ok tt)) (map (command_prog l) cs) g (Ok tt) ->
  (forall l', has_dir g l' = has_dir f l') /\ (forall l' n, l' <> l \/ n <> meta_file /\ (forall m, n <> key_file m) -> file g l' n = file f l' n).
Proof.
  intros l f ks cs g HL HN HT HC H.
  destruct (amid_keeps (sound f l ks cs) _ _ _ _ _ H (sound_now _ _ _ cs HL HT) Logic.I) as [(_ & _ & A & B) _]; [|split; assumption].
  apply Forall_map, Forall_forall. intros [c es] HI. apply (keeps_command f l ks cs HL HT HN HC c es HI).
Qed.
Print Assumptions C81_elsewhere.

(** ** The two writes of the metadata *)

Inductive steps {A} : disk -> prog A -> disk -> prog A -> Prop :=
| StNone f p : steps f p f p
| StOne f p f' p' g q : dstep f p = (f', p') -> steps f' p' g q -> steps f p g q.
Lemma steps_left {A B} f (p : prog A) f' p' (q : prog B) g r s : steps f p f' p' -> both f' p' q g r s -> both f p q g r s.
Proof.
  intros H K. induction H as [f p|f p f1 p1 g' q' HS H IH]; [exact K|]. specialize (IH K). destruct p as [x| | | | | | |]; [cbn [dstep] in HS; apply pair_inj in HS as [<- <-]; exact IH|..];
    (eapply BothLeft; [discriminate | exact HS | exact IH]).
Qed.
Lemma steps_right {A B} f (p : prog A) f' p' (q : prog B) g r s : steps f p f' p' -> both f' q p' g r s -> both f q p g r s.
Proof.
  intros H K. induction H as [f p|f p f1 p1 g' q' HS H IH]; [exact K|]. specialize (IH K). destruct p as [x| | | | | | |]; [cbn [dstep] in HS; apply pair_inj in HS as [<- <-]; exact IH|..];
    (eapply BothRight; [discriminate | exact HS | exact IH]).
Qed.
Lemma steps_exec {A B} (p : prog A) (k : A -> prog B) : forall f f1 a, exec p f = (f1, Ok a) -> steps f (pbind p k) f1 (k a).
Proof.
  induction p as [[x|e]|l n c IH|l c IH|l n c IH|l n c IH|l n d c IH|l n c IH|l c IH]; intros f f1 a HX; cbn [exec] in HX; cbn [pbind].
  - apply pair_inj in HX as [<- HX]. apply Ok_inj in HX as <-. constructor.
  - apply pair_inj in HX as [_ HX]. discriminate.
  - eapply StOne; [reflexivity | apply (IH _ _ _ _ HX)].
  - eapply StOne; [reflexivity | apply (IH _ _ _ _ HX)].
  - eapply StOne; [reflexivity | apply (IH _ _ _ _ HX)].
  - destruct (has_dir f l) eqn:HD; (eapply StOne; [cbn [dstep]; rewrite HD; reflexivity | apply (IH _ _ _ _ HX)]).
  - eapply StOne; [reflexivity | apply (IH _ _ _ HX)].
  - destruct (file f l n) eqn:HD; (eapply StOne; [cbn [dstep]; rewrite HD; reflexivity | apply (IH _ _ _ _ HX)]).
  - eapply StOne; [reflexivity | apply (IH _ _ _ _ HX)].
Qed.
Lemma steps_trans {A} f (p : prog A) f1 p1 f2 p2 : steps f p f1 p1 -> steps f1 p1 f2 p2 -> steps f p f2 p2.
Proof. intros H K. induction H as [|f p f' p' g q HS H IH]; [exact K | apply (StOne _ _ _ _ _ _ HS (IH K))]. Qed.
Lemma steps_bind {A B} f (p : prog A) f1 p1 (k : A -> prog B) : steps f p f1 p1 -> steps f (pbind p k) f1 (pbind p1 k).
Proof.
  intros H. induction H as [|f p f' p' g q HS H IH]; [constructor|]. destruct p as [x|l n c|l c|l n c|l n c|l n d c|l n c|l c]; cbn [dstep] in HS.
  - apply pair_inj in HS as [<- <-]. exact IH.
  - apply pair_inj in HS as [<- <-]. eapply StOne; [reflexivity | exact IH].
  - apply pair_inj in HS as [<- <-]. eapply StOne; [reflexivity | exact IH].
  - apply pair_inj in HS as [<- <-]. eapply StOne; [reflexivity | exact IH].
  - destruct (has_dir f l) eqn:HD; apply pair_inj in HS as [<- <-]; (eapply StOne; [cbn [pbind dstep]; rewrite HD; reflexivity | exact IH]).
  - apply pair_inj in HS as [<- <-]. eapply StOne; [reflexivity | exact IH].
  - destruct (file f l n) eqn:HD; apply pair_inj in HS as [<- <-]; (eapply StOne; [cbn [pbind dstep]; rewrite HD; reflexivity | exact IH]).
  - apply pair_inj in HS as [<- <-]. eapply StOne; [reflexivity | exact IH].
Qed.

(** A command that succeeds reads the set, opens the metadata file, writes it, and then only touches key files. *)
Lemma command_shape l f ks c es g : loadable f l ks -> text_ok (ks_name ks) -> kcmd_ok c -> exec (kcmd_prog l c es) f = (g, Ok tt) ->
  exists t m k rest, file g l meta_file = Some t /\ meta_Read t = Ok m /\ (exists q, t = q ++ [x7d]) /\
    steps f (kcmd_prog l c es) f (OpenW l meta_file k) /\ k true = Write l meta_file t rest /\
    forall h, has_dir h l = true -> exists h', exec rest h = (h', Ok tt) /\ file h' l meta_file = file h l meta_file /\ has_dir h' l = true.
Proof.
  intros HL HN HC HX. pose proof (loadable_open _ _ _ HL) as HO. pose proof (opened_dir f l None ks _ HO) as HD. pose proof (inv_open _ _ _ HO) as I.
  destruct (cmd_shape l f ks c es HL HN HC) as [(e & E & _)|(ks' & r' & ES & RC & RE & _)]; [rewrite HX in E; apply pair_inj in E as [_ E]; discriminate|].
  assert (I' : inv ks') by (change ks' with (fst (ks', Ok tt)); rewrite <- ES; apply inv_step, I).
  assert (W' : keys_wf ks').
  { change ks' with (fst (ks', Ok tt)). rewrite <- ES. apply keys_wf_step; [exact I | apply (keys_wf_open _ _ _ HO) | destruct c; exact HC || exact Logic.I]. }
  destruct (name_step ks (op_of c) I) as (N1 & _). rewrite ES in N1. cbn [fst] in N1.
  assert (EG : exec (CreateGenericKeyczar (Some l) None) f = (f, Ok ks)) by (rewrite exec_generic, HD; f_equal; exact HO).
  assert (MR : meta_Read (meta_text ks' None) = Ok (ks_meta (written ks' None))).
  { apply meta_rt; [apply (ks_meta_wf (written ks' None)); destruct I'; constructor; assumption| |rewrite meta_str_eq; reflexivity]. cbn. rewrite N1. exact HN. }
  assert (KEYS : forall h, has_dir h l = true -> exists h', exec (write_keys l (ks_objs ks') (ks_vkeys ks') None es 0) h = (h', Ok tt) /\ file h' l meta_file = file h l meta_file /\ has_dir h' l = true /\
     forall p, In p (ks_vkeys ks') -> exists x, file h' l (key_file (num_of (ks_objs ks') p)) = Some x).
  { intros h Hh. destruct (write_keys_total l (ks_objs ks') es (ks_vkeys ks') 0 h Hh W') as (h' & E). exists h'. split; [exact E|].
    destruct (write_keys_spec _ _ _ _ _ _ _ _ _ Hh E (nums_NoDup ks' I')) as (A & B & C & D). split; [|split].
    - apply B. right. intros p _ C2. apply (key_file_meta (num_of (ks_objs ks') p)). congruence.
    - rewrite A. exact Hh.
    - intros p Hp. destruct (D eq_refl p Hp) as (e & s & _ & F). exists s. exact F. }
  assert (UPD : exists k, steps f (UpdateGenericKeyczar ks' (Some l) None es) f (OpenW l meta_file k) /\
     k true = Write l meta_file (meta_text ks' None) (write_keys l (ks_objs ks') (ks_vkeys ks') None es 0)).
  { eexists. split.
    - unfold UpdateGenericKeyczar. eapply steps_trans; [apply (steps_exec (CreateWriter l)); unfold CreateWriter, first_accepting, FileWriter_CreateWriter; cbn [pbind exec]; rewrite HD; reflexivity|].
      unfold WriteSet, WriteMetadata, pure. rewrite meta_str_eq. cbn [pbind WriteFile]. change (dumps _) with (meta_text ks' None). constructor.
    - cbn [pbind]. reflexivity. }
  destruct UPD as (k & U1 & U2).
  assert (ALONE : forall h rest g', has_dir h l = true -> steps f (kcmd_prog l c es) f (OpenW l meta_file g') -> g' true = Write l meta_file (meta_text ks' None) rest ->
     (forall h, has_dir h l = true -> exists h', exec rest h = (h', Ok tt) /\ file h' l meta_file = file h l meta_file /\ has_dir h' l = true) -> file g l meta_file = Some (meta_text ks' None)).
  { intros h rest k' Hh S E R. assert (XE : forall {A} f (p : prog A) f' p', steps f p f' p' -> exec p f = exec p' f') by (intros A f1 p1 f2 p2 H; induction H as [|? ? ? ? ? ? HS _ IH]; [reflexivity | rewrite (exec_dstep _ _ _ _ HS); exact IH]).
    rewrite (XE _ _ _ _ _ S) in HX. cbn [exec] in HX. rewrite HD, E in HX. cbn [exec] in HX.
    destruct (R (put (set_file f l meta_file []) l meta_file (meta_text ks' None))) as (h' & E1 & E2 & _); [rewrite has_dir_put, has_dir_set; exact HD|].
    rewrite HX in E1. apply pair_inj in E1 as [<- _]. rewrite E2, file_put, !str_eqb_refl. cbn [andb]. rewrite file_set by exact HD. rewrite !str_eqb_refl. cbn [andb]. rewrite skipn_nil, app_nil_r. reflexivity. }
  assert (BR : exists q, meta_text ks' None = q ++ [x7d]) by apply meta_text_brace.
  exists (meta_text ks' None), (ks_meta (written ks' None)).
  assert (FIN : forall k' rest, steps f (kcmd_prog l c es) f (OpenW l meta_file k') -> k' true = Write l meta_file (meta_text ks' None) rest ->
     (forall h, has_dir h l = true -> exists h', exec rest h = (h', Ok tt) /\ file h' l meta_file = file h l meta_file /\ has_dir h' l = true) ->
     exists k rest, file g l meta_file = Some (meta_text ks' None) /\ meta_Read (meta_text ks' None) = Ok (ks_meta (written ks' None)) /\ (exists q, meta_text ks' None = q ++ [x7d]) /\
       steps f (kcmd_prog l c es) f (OpenW l meta_file k) /\ k true = Write l meta_file (meta_text ks' None) rest /\
       forall h, has_dir h l = true -> exists h', exec rest h = (h', Ok tt) /\ file h' l meta_file = file h l meta_file /\ has_dir h' l = true).
  { intros k' rest S E R. exists k', rest. split; [apply (ALONE f rest k' HD S E R)|]. split; [exact MR|]. split; [exact BR|]. split; [exact S|]. split; [exact E | exact R]. }
  assert (KEYS' : forall h, has_dir h l = true -> exists h', exec (write_keys l (ks_objs ks') (ks_vkeys ks') None es 0) h = (h', Ok tt) /\ file h' l meta_file = file h l meta_file /\ has_dir h' l = true).
  { intros h Hh. destruct (KEYS h Hh) as (h' & A & B & C & _). exists h'. auto. }
  assert (CHG : forall change n, change ks n = (ks', Ok tt) -> 0 <= n -> steps f (ChangeCmd change (Some l) n es) f (OpenW l meta_file k)).
  { intros change n EC H0. unfold ChangeCmd. eapply steps_trans; [apply (steps_exec _ _ _ _ _ EG)|]. cbv beta. rewrite (proj2 (Z.ltb_ge n 0) H0), EC. exact U1. }
  destruct c as [s size ds|n|n|n]; cbn [op_of step kcmd_prog] in *.
  - apply (FIN k _ ltac:(unfold AddKeyCmd; eapply steps_trans; [apply (steps_exec _ _ _ _ _ EG)|]; cbv beta; rewrite ES; exact U1) U2 KEYS').
  - apply (FIN k _ ltac:(apply CHG; [exact ES | inversion RC; assumption]) U2 KEYS').
  - apply (FIN k _ ltac:(apply CHG; [exact ES | inversion RC; assumption]) U2 KEYS').
  - assert (H0 : 0 <= n) by (inversion RC; assumption). eapply FIN.
    + unfold RevokeCmd. apply (steps_bind _ _ _ _ _ (CHG Revoke n ES H0)).
    + cbn [pbind]. rewrite U2. cbn [pbind]. reflexivity.
    + intros h Hh. destruct (KEYS h Hh) as (h' & A & B & C & D). rewrite exec_bind, A. rewrite exec_bind. unfold CreateWriter, first_accepting, FileWriter_CreateWriter. cbn [pbind exec]. rewrite C. cbn [exec RemoveKey].
      assert (HF : exists x, file h' l (key_file n) = Some x).
      { assert (RK : exists k, ring_of ks n = Some (INACTIVE, k)).
        { inversion RC as [| | |? ? _ X]; subst. unfold ring_revoke in X. destruct (ring_of ks n) as [[[] k0]|]; try discriminate. exists k0. reflexivity. }
        destruct RK as (k0 & RK). pose proof (Revoke_ok ks n k0 I RK) as RO. rewrite ES in RO. apply pair_inj in RO as [EK _]. destruct (ring_entry ks n INACTIVE k0 I RK) as (o & A1 & A2 & _ & _).
        assert (HI : In (o, k0) (ks_vkeys ks')) by (rewrite EK; exact (assoc_In Nat.eqb_eq A2)). destruct (D (o, k0) HI) as (x & F). exists x.
        unfold num_of in F. cbn [fst] in F. rewrite EK in F. rewrite <- (proj2 (inv_mvers ks I n o (assoc_In Z.eqb_eq A1))). exact F. }
      destruct HF as (x & ->). eexists. split; [reflexivity|]. split; [rewrite file_del, key_meta_eqb, andb_false_r; exact B | rewrite has_dir_del; exact C].
Qed.

(** REFUTED for readability, for any two commands whose metadata texts differ in length: both may
    report success and leave a metadata file that starts with the shorter text and ends with what is
    left of the longer one.  No class opens the set any more. *)
Theorem C81_garbled_refuted : forall l f ks c1 c2 es1 es2 g1 g2 t1 t2, loadable f l ks -> text_ok (ks_name ks) -> kcmd_ok c1 -> kcmd_ok c2 ->
  exec (kcmd_prog l c1 es1) f = (g1, Ok tt) -> exec (kcmd_prog l c2 es2) f = (g2, Ok tt) ->
  file g1 l meta_file = Some t1 -> file g2 l meta_file = Some t2 -> (List.length t2 < List.length t1)%nat ->
  exists g, both f (kcmd_prog l c1 es1) (kcmd_prog l c2 es2) g (Ok tt) (Ok tt) /\ file g l meta_file = Some (t2 ++ skipn (List.length t2) t1) /\
    forall cl cr, exists e, exec (open_files cl l cr) g = (g, Raise e).
Proof.
  intros l f ks c1 c2 es1 es2 g1 g2 t1 t2 HL HN HC1 HC2 X1 X2 F1 F2 LT. pose proof (loadable_open _ _ _ HL) as HO. pose proof (opened_dir f l None ks _ HO) as HD.
  destruct (command_shape l f ks c1 es1 g1 HL HN HC1 X1) as (a1 & m1 & k1 & r1 & A1 & _ & (q1 & Q1) & S1 & E1 & R1). rewrite F1 in A1. apply Some_inj in A1 as <-.
  destruct (command_shape l f ks c2 es2 g2 HL HN HC2 X2) as (a2 & m2 & k2 & r2 & A2 & M2 & _ & S2 & E2 & R2). rewrite F2 in A2. apply Some_inj in A2 as <-.
  set (h0 := set_file (set_file f l meta_file []) l meta_file []). set (h1 := put (put h0 l meta_file t1) l meta_file t2).
  assert (D1 : has_dir h1 l = true) by (unfold h1, h0; rewrite !has_dir_put, !has_dir_set; exact HD).
  assert (FH : file h1 l meta_file = Some (t2 ++ skipn (List.length t2) t1)).
  { unfold h1, h0. rewrite file_put, !str_eqb_refl. cbn [andb]. rewrite file_put, !str_eqb_refl. cbn [andb]. rewrite file_set by (rewrite has_dir_set; exact HD). rewrite !str_eqb_refl. cbn [andb].
    rewrite skipn_nil, app_nil_r. reflexivity. }
  destruct (R1 h1 D1) as (h2 & Y1 & G1 & D2). destruct (R2 h2 D2) as (h3 & Y2 & G2 & _). exists h3. rewrite FH in G1. rewrite G1 in G2. split; [|split; [exact G2|]].
  - apply (steps_left _ _ _ _ _ _ _ _ S1). apply (steps_right _ _ _ _ _ _ _ _ S2).
    eapply BothLeft; [discriminate | cbn [dstep]; rewrite HD; reflexivity|]. eapply BothRight; [discriminate | cbn [dstep]; rewrite has_dir_set, HD; reflexivity|]. fold h0. rewrite E1, E2.
    eapply BothLeft; [discriminate | reflexivity|]. eapply BothRight; [discriminate | reflexivity|]. fold h1.
    assert (BD : forall (p : prog unit) f g s (q : prog unit) g' s', exec p f = (g, s) -> both g (Done s) q g' s s' -> both f p q g' s s').
    { induction p as [x|l' n' c IH|l' c IH|l' n' c IH|l' n' c IH|l' n' d c IH|l' n' c IH|l' c IH]; intros f' g' s q g'' s' HX HB; cbn [exec] in HX.
      - apply pair_inj in HX as [<- <-]. exact HB.
      - eapply BothLeft; [discriminate | reflexivity | apply (IH _ _ _ _ _ _ _ HX HB)].
      - eapply BothLeft; [discriminate | reflexivity | apply (IH _ _ _ _ _ _ _ HX HB)].
      - eapply BothLeft; [discriminate | reflexivity | apply (IH _ _ _ _ _ _ _ HX HB)].
      - destruct (has_dir f' l') eqn:Hd; (eapply BothLeft; [discriminate | cbn [dstep]; rewrite Hd; reflexivity | apply (IH _ _ _ _ _ _ _ HX HB)]).
      - eapply BothLeft; [discriminate | reflexivity | apply (IH _ _ _ _ _ _ HX HB)].
      - destruct (file f' l' n') eqn:Hd; (eapply BothLeft; [discriminate | cbn [dstep]; rewrite Hd; reflexivity | apply (IH _ _ _ _ _ _ _ HX HB)]).
      - eapply BothLeft; [discriminate | reflexivity | apply (IH _ _ _ _ _ _ _ HX HB)]. }
    apply (BD _ _ _ _ _ _ _ Y1). apply (both_right_exec _ _ _ _ _ _ _ Y2). constructor.
  - intros cl cr. rewrite exec_open. destruct (open_keyset cl (disk_reader h3 l cr)) as [ks3|e] eqn:E; [exfalso | exists e; reflexivity].
    apply open_ok in E as (s & m & ls & EM & ER & _). assert (E0 : rd_meta (disk_reader h3 l cr) = answer (file h3 l meta_file)) by (destruct cr; reflexivity).
    rewrite E0, G2 in EM. apply Ok_inj in EM as <-. destruct (meta_object _ _ ER) as (o & Lo). destruct (meta_object _ _ M2) as (o2 & Lo2).
    pose proof (cut_object _ _ _ _ Lo2 Lo) as W. assert (x7d_in : In x7d (skipn (List.length t2) t1)).
    { rewrite Q1. rewrite Q1, app_length in LT. cbn [List.length] in LT. rewrite skipn_app. apply in_or_app. right. replace (List.length t2 - List.length q1)%nat with 0%nat by lia. left. reflexivity. }
    unfold ws in W. rewrite Forall_forall in W. specialize (W _ x7d_in). cbn in W. destruct W as [W|[W|[W|[W|[]]]]]; discriminate W.
Qed.
Print Assumptions C81_garbled_refuted.

(** ** A case: a new version is added while the primary key is demoted *)

Definition at_once : list command := [(CmdAddKey ACTIVE (-1) [zero_draw x2a], one_env); (CmdDemote 2, one_env)].
Fixpoint scheduled (is : list nat) (f : disk) (qs : list (prog unit)) : disk * list (prog unit) :=
  match is with
  | [] => (f, qs)
  | i :: is => match nth_error qs i with
               | Some q => let '(f', q') := dstep f q in scheduled is f' (firstn i qs ++ q' :: skipn (S i) qs)
               | None => (f, qs)
               end
  end.
Lemma amid_scheduled {A} (p : prog A) g r : forall is f qs, amid (fst (scheduled is f qs)) p (snd (scheduled is f qs)) g r -> amid f p qs g r.
Proof.
  induction is as [|i is IH]; intros f qs H; cbn [scheduled] in H; [exact H|]. destruct (nth_error qs i) as [q|] eqn:E; [|exact H]. destruct (dstep f q) as [f' q'] eqn:ES. apply IH in H.
  assert (EQ : qs = firstn i qs ++ q :: skipn (S i) qs).
  { clear -E. revert i E. induction qs as [|x qs IHq]; intros [|i] E; try discriminate; cbn in E |- *; [congruence|]. f_equal. apply IHq, E. }
  rewrite EQ. apply (AmOther _ _ _ _ _ _ _ _ _ ES H).
Qed.
Lemma amid_ended {A} f (x y : res unit) (p : prog A) g r : amid f p [] g r -> amid f p [Done x; Done y] g r.
Proof. intros H. apply (AmEnds f p [] x [Done y]). apply (AmEnds f p [] y []). exact H. Qed.

Definition whole : list nat := repeat 0%nat 5 ++ repeat 1%nat 5 ++ repeat 0%nat 2 ++ repeat 1%nat 2 ++ concat (repeat [0; 1]%nat 8).
Definition at_once_disk : disk := fst (scheduled whole test_disk (map (command_prog hm) at_once)).
Lemma at_once_done : snd (scheduled whole test_disk (map (command_prog hm) at_once)) = [Done (Ok tt); Done (Ok tt)].
Proof. vm_compute. reflexivity. Qed.
Lemma at_once_eq : scheduled whole test_disk (map (command_prog hm) at_once) = (at_once_disk, [Done (Ok tt); Done (Ok tt)]).
Proof. rewrite (surjective_pairing (scheduled _ _ _)), at_once_done. unfold at_once_disk. reflexivity. Qed.
Lemma at_once_then {A} (p : prog A) g r : amid at_once_disk p [] g r -> amid test_disk p (map (command_prog hm) at_once) g r.
Proof.
  intros H. apply (amid_ended _ (Ok tt) (Ok tt)) in H. pose proof (amid_scheduled p g r whole test_disk (map (command_prog hm) at_once)) as K. rewrite at_once_eq in K. apply K, H.
Qed.
Lemma at_once_ok : Forall (fun c => kcmd_ok (fst c)) at_once.
Proof. repeat constructor; cbn; lia. Qed.
Lemma at_once_amid : amid test_disk (Done (Ok tt)) (map (command_prog hm) at_once) at_once_disk (Ok tt).
Proof. apply at_once_then. apply AmDone. Qed.
Lemma at_once_opened : match opened_at at_once_disk with Ok ks' => option_map fst (ring_of ks' 2) = Some ACTIVE /\ ring_of ks' 1 <> None /\ ring_of ks' 3 = None | Raise _ => False end.
Proof. vm_compute. split; [reflexivity|]. split; [discriminate | reflexivity]. Qed.

Lemma alone_texts : match exec (kcmd_prog hm (CmdAddKey ACTIVE (-1) [zero_draw x2a]) one_env) test_disk, exec (kcmd_prog hm (CmdDemote 2) one_env) test_disk with
  | (g1, Ok tt), (g2, Ok tt) => match file g1 hm meta_file, file g2 hm meta_file with Some t1, Some t2 => Nat.ltb (List.length t2) (List.length t1) = true | _, _ => False end
  | _, _ => False end.
Proof. vm_compute. reflexivity. Qed.

Lemma alone_cases (x y : disk * res unit) : match x, y with
  | (g1, Ok tt), (g2, Ok tt) => match file g1 hm meta_file, file g2 hm meta_file with Some t1, Some t2 => Nat.ltb (List.length t2) (List.length t1) = true | _, _ => False end
  | _, _ => False end ->
  exists g1 g2 t1 t2, x = (g1, Ok tt) /\ y = (g2, Ok tt) /\ file g1 hm meta_file = Some t1 /\ file g2 hm meta_file = Some t2 /\ (List.length t2 < List.length t1)%nat.
Proof.
  destruct x as [g1 [[]|]]; [|contradiction]. destruct y as [g2 [[]|]]; [|contradiction]. intros AT.
  destruct (file g1 hm meta_file) as [t1|] eqn:F1; [|contradiction]. destruct (file g2 hm meta_file) as [t2|] eqn:F2; [|contradiction].
  exists g1, g2, t1, t2. split; [reflexivity|]. split; [reflexivity|]. split; [exact F1|]. split; [exact F2|]. apply Nat.ltb_lt, AT.
Qed.
Lemma amid_reads {A} (p : prog A) f r : reads p -> exec p f = (f, r) -> amid f p [] f r.
Proof.
  revert r. induction p as [x|l' n k IH|l' k IH|l' n k IH|l' n k IH|l' n d k IH|l' n k IH|l' k IH]; cbn [reads exec]; intros r R HX; try contradiction.
  - apply pair_inj in HX as [_ <-]. constructor.
  - eapply AmThis; [reflexivity | apply (IH _ _ (R _) HX)].
  - eapply AmThis; [reflexivity | apply (IH _ _ (R _) HX)].
  - eapply AmThis; [reflexivity | apply (IH _ _ (R _) HX)].
  - eapply AmThis; [reflexivity | apply (IH _ _ (R _) HX)].
Qed.
Lemma opened_cases f (Q : keyset -> Prop) : match opened_at f with Ok ks' => Q ks' | Raise _ => False end -> exists ks', exec (open_files GenericKeyczar hm None) f = (f, Ok ks') /\ Q ks'.
Proof.
  intros H. unfold opened_at in H. rewrite exec_open in H |- *. cbn [snd] in H. destruct (open_keyset _ _) as [ks'|]; [|contradiction]. exists ks'. split; [reflexivity | exact H].
Qed.

Example C81_case : loadable test_disk hm hmac_set /\ text_ok (ks_name hmac_set) /\ tidy test_disk hm hmac_set /\ Forall (fun c => kcmd_ok (fst c)) at_once /\
  (exists g ks', amid test_disk (Done (Ok tt)) (map (command_prog hm) at_once) g (Ok tt) /\ exec (open_files GenericKeyczar hm None) g = (g, Ok ks') /\
     option_map fst (ring_of ks' 2) = Some ACTIVE /\ ring_of ks' 1 <> None /\ ring_of ks' 3 = None) /\
  (exists g ks', amid test_disk (open_files GenericKeyczar hm None) (map (command_prog hm) at_once) g (Ok ks')) /\
  exists g1 g2 t1 t2, exec (kcmd_prog hm (CmdAddKey ACTIVE (-1) [zero_draw x2a]) one_env) test_disk = (g1, Ok tt) /\ exec (kcmd_prog hm (CmdDemote 2) one_env) test_disk = (g2, Ok tt) /\
    file g1 hm meta_file = Some t1 /\ file g2 hm meta_file = Some t2 /\ (List.length t2 < List.length t1)%nat.
Proof.
  split; [exact hmac_loadable|]. split; [apply (tx_ok "Test")|]. split; [exact test_tidy|]. split; [exact at_once_ok|].
  destruct (opened_cases at_once_disk (fun ks' => option_map fst (ring_of ks' 2) = Some ACTIVE /\ ring_of ks' 1 <> None /\ ring_of ks' 3 = None) at_once_opened) as (ks' & EX & AO). split; [|split].
  - exists at_once_disk, ks'. split; [exact at_once_amid|]. split; [exact EX | exact AO].
  - exists at_once_disk, ks'. apply at_once_then, amid_reads; [apply reads_open | exact EX].
  - exact (alone_cases (exec (kcmd_prog hm (CmdAddKey ACTIVE (-1) [zero_draw x2a]) one_env) test_disk) (exec (kcmd_prog hm (CmdDemote 2) one_env) test_disk) alone_texts).
Qed.
