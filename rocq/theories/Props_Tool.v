(** * Props_Tool: the keyczart commands on key sets on disk (C47-C50). *)
From Coq Require Import Strings.String.
From Coq Require Import List ZArith NArith Bool Lia ZifyBool ZifyNat ZifyN.
From Coq.Init Require Import Byte.
From Verif Require Import PyBase PyFacts Base64 Util Json JsonFacts KeyInfo SymKeys AsymKeys Keys KeysFacts KeyData Keyczar KeyRing
  KeyczarFacts SymFacts Props_Sym Props_Keyset Props_Sign Disk Keyczart DiskFacts CrashFacts Props_Disk.
Import ListNotations.
Local Open Scope Z_scope.
Ltac Zify.zify_post_hook ::= idtac.

(** ** C47: specification *)

(** The directory [l] holds a key set, not encrypted, that loads as [ks]. *)
Definition loadable (f : disk) (l : str) (ks : keyset) : Prop := exec (open_files GenericKeyczar l None) f = (f, Ok ks).

(** The commands that change an existing key set.  [ds] is what the random generators yield. *)
Inductive kcmd := CmdAddKey (s : status) (size : Z) (ds : list draw) | CmdPromote (n : Z) | CmdDemote (n : Z) | CmdRevoke (n : Z).
Definition kcmd_prog (l : str) (c : kcmd) (es : nat -> env) : prog unit :=
  match c with
  | CmdAddKey s size ds => AddKeyCmd (Some l) s None size ds es
  | CmdPromote n => PromoteCmd (Some l) n es
  | CmdDemote n => DemoteCmd (Some l) n es
  | CmdRevoke n => RevokeCmd (Some l) n es
  end.
Definition kcmd_ok (c : kcmd) : Prop := match c with CmdAddKey s size ds => draws_ok (OpAdd ds s None) | _ => True end.

(** The number of the next version of a ring: one above the largest, or 1. *)
Definition next_number (r : ring) (n : Z) : Prop :=
  1 <= n /\ (forall m x, r m = Some x -> m < n) /\ (n = 1 \/ exists x, r (n - 1) = Some x).
(** -1 stands for the default key size. *)
Definition size_of (t : ktype) (size : Z) : Z := if size =? -1 then default_size t else size.

(** What a command does to a ring of keys of type [t]... *)
Inductive ring_cmd (t : ktype) (r : ring) : kcmd -> ring -> Prop :=
| RingAdd s size ds d n k : In (size_of t size) (sizes t) -> In d ds -> GenKey d t (Some (size_of t size)) = Ok k -> next_number r n ->
    (forall m s' k', r m = Some (s', k') -> key_hash_id k' <> key_hash_id k) -> ring_cmd t r (CmdAddKey s size ds) (ring_add r n s k)
| RingPromote n r' : 0 <= n -> ring_promote r n = Some r' -> ring_cmd t r (CmdPromote n) r'
| RingDemote n r' : 0 <= n -> ring_demote r n = Some r' -> ring_cmd t r (CmdDemote n) r'
| RingRevoke n r' : 0 <= n -> ring_revoke r n = Some r' -> ring_cmd t r (CmdRevoke n) r'.

(** ... and when it is refused. *)
Definition refused (t : ktype) (r : ring) (c : kcmd) : Prop :=
  match c with
  | CmdAddKey s size ds => ~ In (size_of t size) (sizes t) \/ is_public t = true \/
      (forall d, In d ds -> exists k m s' k', GenKey d t (Some (size_of t size)) = Ok k /\ r m = Some (s', k') /\ key_hash_id k' = key_hash_id k)
  | CmdPromote n => n < 0 \/ ring_promote r n = None
  | CmdDemote n => n < 0 \/ ring_demote r n = None
  | CmdRevoke n => n < 0 \/ ring_revoke r n = None
  end.

(** ** Loading and storing at a location *)

Lemma loadable_open f l ks : loadable f l ks -> open_keyset GenericKeyczar (file_reader f l) = Ok ks.
Proof. intros H. unfold loadable in H. rewrite exec_open in H. apply pair_inj in H as [_ H]. exact H. Qed.

Lemma opened_dir f l cr ks c : open_keyset c (disk_reader f l cr) = Ok ks -> has_dir f l = true.
Proof.
  intros H. apply open_ok in H as (s & m & ls & EM & _). assert (E0 : rd_meta (disk_reader f l cr) = answer (file f l meta_file)) by (destruct cr; reflexivity).
  rewrite E0 in EM. destruct (file f l meta_file) eqn:EF; [|discriminate]. apply (has_dir_file _ _ _ _ EF).
Qed.

Lemma exec_generic f l cr : exec (CreateGenericKeyczar (Some l) cr) f =
  if has_dir f l then (f, open_keyset GenericKeyczar (disk_reader f l cr)) else (f, Raise KeyczarError).
Proof.
  assert (E : exec (CreateReader l) f = if has_dir f l then (f, Ok IsFileReader) else (f, Raise KeyczarError)) by (cbn; destruct (has_dir f l); reflexivity).
  unfold CreateGenericKeyczar. rewrite exec_bind, E. destruct (has_dir f l); [apply exec_open | reflexivity].
Qed.

Lemma exec_update f l ks enc es : has_dir f l = true -> exec (UpdateGenericKeyczar ks (Some l) enc es) f = exec (WriteSet ks l enc es) f.
Proof. intros HD. unfold UpdateGenericKeyczar. rewrite exec_bind. unfold CreateWriter, first_accepting, FileWriter_CreateWriter. cbn [pbind exec]. rewrite HD. reflexivity. Qed.

Lemma generic_ok p : IsAcceptablePurpose GenericKeyczar p = true.
Proof. destruct p; reflexivity. Qed.

(** In a set just loaded every key belongs to a version of the ring. *)
Lemma opened_vkeys c rd ks o k : open_keyset c rd = Ok ks -> In (o, k) (ks_vkeys ks) ->
  ring_of ks (v_num (deref (ks_objs ks) o)) = Some (v_status (deref (ks_objs ks) o), k).
Proof.
  intros H HI. pose proof (inv_open _ _ _ H) as I.
  assert (Ho : In o (map snd (ks_mvers ks))).
  { apply open_ok in H as (s0 & m & ls & _ & ERd & _ & _ & F & _ & _ & _ & _ & EO & EM & EV & _).
    rewrite EM, map_snd_combine by (unfold meta_versions; rewrite !map_length, seq_length; reflexivity). rewrite EV in HI. apply in_combine_l in HI. exact HI. }
  apply in_map_iff in Ho as ([n o2] & E2 & HM). cbn [snd] in E2. subst o2.
  destruct (ring_known ks n o I (assoc_NoDup Z.eqb_eq (inv_mkeys ks I) HM)) as (k' & HK & HR).
  rewrite (proj2 (inv_mvers ks I n o HM)), HR. rewrite (assoc_NoDup Nat.eqb_eq (inv_vnodup ks I) HI) in HK. congruence.
Qed.

(** [AddVersion] on a set just loaded. *)
Lemma add_loaded c rd ks ds s size : open_keyset c rd = Ok ks -> draws_ok (OpAdd ds s None) ->
  let sz := if size =? -1 then None else Some size in
  (exists ks' r', AddVersion ks ds s sz = (ks', Ok tt) /\ ring_cmd (ks_type ks) (ring_of ks) (CmdAddKey s size ds) r' /\ forall n, ring_of ks' n = r' n) \/
  (exists ks' e, AddVersion ks ds s sz = (ks', Raise e) /\ refused (ks_type ks) (ring_of ks) (CmdAddKey s size ds)).
Proof.
  intros H D sz. pose proof (C28_add _ _ ks [] ds s sz H) as CA. cbn [run fold_left] in CA.
  pose proof (fun ks' => C27_new_number_is_max_plus_one _ _ ks [] ds s sz ks' H) as CN. cbn [run fold_left] in CN.
  assert (EZ : match sz with Some z => z | None => default_size (ks_type ks) end = size_of (ks_type ks) size) by (unfold sz, size_of; destruct (size =? -1); reflexivity).
  rewrite EZ in CA. destruct CA as [C1 C2]. destruct (AddVersion ks ds s sz) as [ks' r] eqn:EA.
  pose proof (inv_open _ _ _ H) as I.
  assert (LK : forall h k', GetKey_hash ks h = Ok k' -> exists m s', ring_of ks m = Some (s', k') /\ key_hash_id k' = Ok h).
  { intros h k' HG. unfold GetKey_hash in HG. destruct (assoc str_eqb (ks_hkeys ks) h) as [k2|] eqn:EH; [|discriminate]. apply Ok_inj in HG as <-.
    destruct (inv_hash2 ks I h k2 EH) as (HH & o & HI). exists (v_num (deref (ks_objs ks) o)), (v_status (deref (ks_objs ks) o)).
    split; [apply (opened_vkeys _ _ _ _ _ H HI) | exact HH]. }
  destruct (in_dec Z.eq_dec (size_of (ks_type ks) size) (sizes (ks_type ks))) as [Hz|Hz].
  2:{ right. apply C1 in Hz as E. apply pair_inj in E as [-> ->]. eexists _, _. split; [reflexivity | left; exact Hz]. }
  destruct (is_public (ks_type ks)) eqn:EP.
  { right. destruct r as [[]|e]; [|eexists _, _; split; [reflexivity | right; left; exact EP]]. exfalso.
    rewrite AddVersion_eq in EA. cbv zeta in EA. destruct (negb _); [apply pair_inj in EA as [_ EA]; discriminate|].
    destruct (gen_unique _ _ _ ds) as [[k h]|e] eqn:EG; [|apply pair_inj in EA as [_ EA]; discriminate].
    apply gen_unique_ok in EG as (_ & _ & d & _ & HG). unfold GenKey in HG. destruct (negb _); [discriminate|]. destruct (ks_type ks); discriminate. }
  destruct (C2 Hz eq_refl) as [(d & k & h & n & Hd & HG & HH & HF & HN & DO)|[DR DD]].
  - left. cbn [does snd fst] in DO. destruct DO as [-> DR]. destruct (CN ks' eq_refl) as (n' & k' & A1 & A2 & A3 & A4 & _).
    assert (NR : forall m x, ring_of ks m = Some x -> m < n') by (intros m x Hx; apply A3; exists [], [], x; split; [reflexivity | exact Hx]).
    assert (n' = n /\ k' = k) as [-> ->].
    { rewrite DR in A1. unfold ring_add in A1. destruct (n' =? n) eqn:E; [apply Z.eqb_eq in E; split; congruence|].
      exfalso. assert (forall x, ring_of ks n' = Some x -> False) by (intros x Hx; apply NR in Hx; lia).
      destruct (ring_of ks n') as [x|]; [apply (H0 x eq_refl) | destruct s; discriminate]. }
    exists ks', (ring_add (ring_of ks) n s k). split; [reflexivity|]. split; [|exact DR]. apply RingAdd with (d := d); [exact Hz | exact Hd | exact HG | |].
    + split; [exact A2|]. split; [exact NR|]. destruct A4 as [A4|(o & k2 & A4 & A5)]; [left; exact A4|]. right. eexists. rewrite <- A5. apply (opened_vkeys _ _ _ _ _ H A4).
    + intros m s' k2 HM C. destruct (ring_entry ks m s' k2 I HM) as (o & _ & HK & _).
      destruct (inv_hash1 ks I o k2 (assoc_In Nat.eqb_eq HK)) as (h2 & k3 & E1 & E2). rewrite C, HH in E1. apply Ok_inj in E1 as <-.
      unfold GetKey_hash in HF. rewrite E2 in HF. discriminate.
  - right. cbn [snd] in DR. subst r. eexists _, _. split; [reflexivity|]. right. right. intros d Hd. destruct (DD d Hd) as (k & h & k' & G1 & G2 & G3).
    destruct (LK h k' G3) as (m & s' & L1 & L2). exists k, m, s', k'. split; [exact G1|]. split; [exact L1 | congruence].
Qed.

Lemma exec_change change l n es f ks : loadable f l ks -> exec (ChangeCmd change (Some l) n es) f =
  if n <? 0 then (f, Raise KeyczarError)
  else match change ks n with (ks', Ok _) => exec (WriteSet ks' l None es) f | (_, Raise e) => (f, Raise e) end.
Proof.
  intros H. apply loadable_open in H. pose proof (opened_dir f l None ks _ H) as HD. unfold ChangeCmd. rewrite exec_bind, exec_generic, HD.
  cbn [disk_reader]. rewrite H. destruct (n <? 0); [reflexivity|]. destruct (change ks n) as [ks' [[]|e]]; cbn [pure pbind]; [apply exec_update, HD | reflexivity].
Qed.

Lemma exec_add l cr s size ds es f ks : open_keyset GenericKeyczar (disk_reader f l cr) = Ok ks ->
  exec (AddKeyCmd (Some l) s cr size ds es) f =
  match AddVersion ks ds s (if size =? -1 then None else Some size) with (ks', Ok _) => exec (WriteSet ks' l cr es) f | (_, Raise e) => (f, Raise e) end.
Proof.
  intros H. pose proof (opened_dir f l cr ks _ H) as HD. unfold AddKeyCmd. rewrite exec_bind, exec_generic, HD, H.
  destruct (AddVersion _ _ _ _) as [ks' [[]|e]]; cbn [pure pbind]; [apply exec_update, HD | reflexivity].
Qed.

(** Writing a set that came from [l] touches only [l], and it can be loaded again. *)
Lemma stored_again ks l enc cr es f g : made ks -> text_ok (ks_name ks) -> reads_back enc cr -> exec (WriteSet ks l enc es) f = (g, Ok tt) ->
  (forall l' n', l' <> l -> file g l' n' = file f l' n') /\ (forall l', has_dir g l' = has_dir f l') /\
  exists ks', open_keyset GenericKeyczar (disk_reader g l cr) = Ok ks' /\ same_keyset ks' ks /\
    ks_encrypted ks' = match enc with Some _ => true | None => false end.
Proof.
  intros M HN RB HW. destruct (WriteSet_spec _ _ _ _ _ _ _ (made_inv _ M) HW) as (_ & _ & S1 & S2 & _).
  split; [intros l' n' HL; apply S2; left; exact HL|]. split; [exact S1|].
  apply (reopen_same ks l enc cr es f g GenericKeyczar M HN RB HW (generic_ok _)).
Qed.

Lemma opened_meta c rd ks : open_keyset c rd = Ok ks -> forall n o, In (n, o) (ks_mvers ks) -> exists s, rd_key rd n = Ok s.
Proof.
  intros H n o HI. pose proof (inv_open _ _ _ H) as I. pose proof H as H'. apply open_ok in H' as (s & m & ls & E1 & E2 & _).
  pose proof (open_ring _ _ _ _ _ H E1 E2 n) as ER. destruct (ring_known ks n o I (assoc_NoDup Z.eqb_eq (inv_mkeys ks I) HI)) as (k & _ & HR).
  rewrite HR in ER. destruct (assoc Z.eqb (m_versions m) n); [|discriminate]. destruct (rd_key rd n) as [x|]; [exists x; reflexivity | discriminate].
Qed.

(** What a successful or failed command means for the disk. *)
Definition outcome (f : disk) (l : str) (ks : keyset) (c : kcmd) (g : disk) (r : res unit) : Prop :=
  (r = Ok tt /\
   (exists ks' r', loadable g l ks' /\ ks_name ks' = ks_name ks /\ ks_purpose ks' = ks_purpose ks /\ ks_type ks' = ks_type ks /\
      ring_cmd (ks_type ks) (ring_of ks) c r' /\ forall n, ring_of ks' n = r' n) /\
   (forall l' n', l' <> l -> file g l' n' = file f l' n') /\ (forall l', has_dir g l' = has_dir f l') /\
   (forall n, c = CmdRevoke n -> file g l (key_file n) = None)) \/
  ((exists e, r = Raise e) /\ g = f /\ refused (ks_type ks) (ring_of ks) c).

Theorem C47_command : forall l f ks c es g r, loadable f l ks -> text_ok (ks_name ks) -> kcmd_ok c ->
  exec (kcmd_prog l c es) f = (g, r) -> outcome f l ks c g r.
Proof.
  intros l f ks c es g r HL HN HC HX. pose proof (loadable_open _ _ _ HL) as HO. pose proof (made_open _ _ _ HO) as M.
  pose proof (opened_dir f l None ks _ HO) as HD. pose proof (made_inv ks M) as I.
  pose proof (fun n => C28_promote_demote_revoke _ _ ks [] n HO) as CP. cbn [run fold_left] in CP.
  assert (NM : forall o, draws_ok o -> made (fst (step ks o)) /\ ks_name (fst (step ks o)) = ks_name ks /\ ks_purpose (fst (step ks o)) = ks_purpose ks /\ ks_type (fst (step ks o)) = ks_type ks).
  { intros o Ho. split; [rewrite step_run; apply made_run; [exact M | repeat constructor; exact Ho]|]. destruct (name_step ks o I) as (A & B & C & _). auto. }
  assert (G : forall o ks' r', draws_ok o -> step ks o = (ks', Ok tt) -> ring_cmd (ks_type ks) (ring_of ks) c r' -> (forall n, ring_of ks' n = r' n) ->
     exists g1, exec (WriteSet ks' l None es) f = (g1, Ok tt) /\
     (exists ks' r', loadable g1 l ks' /\ ks_name ks' = ks_name ks /\ ks_purpose ks' = ks_purpose ks /\ ks_type ks' = ks_type ks /\
      ring_cmd (ks_type ks) (ring_of ks) c r' /\ forall n, ring_of ks' n = r' n) /\
      (forall l' n', l' <> l -> file g1 l' n' = file f l' n') /\ (forall l', has_dir g1 l' = has_dir f l')).
  { intros o ks' r' Ho ES RC RE. destruct (NM o Ho) as (M' & N1 & N2 & N3). rewrite ES in M', N1, N2, N3. cbn [fst] in *.
    destruct (WriteSet_total ks' l es f HD (made_wf _ M')) as (g1 & HW). exists g1. split; [exact HW|].
    assert (HN' : text_ok (ks_name ks')) by (rewrite N1; exact HN).
    destruct (stored_again ks' l None None es f g1 M' HN' Logic.I HW) as (S1 & S2 & ks2 & S3 & (E1 & E2 & E3 & _ & E5 & _) & _).
    split; [|split; assumption]. exists ks2, r'. split; [unfold loadable; rewrite exec_open, S3; reflexivity|].
    split; [congruence|]. split; [congruence|]. split; [congruence|]. split; [exact RC|]. intros n. rewrite E5. apply RE. }
  destruct c as [s size ds|n|n|n]; cbn [kcmd_prog] in HX.
  - rewrite (exec_add l None s size ds es f ks HO) in HX. destruct (add_loaded _ _ ks ds s size HO HC) as [(ks' & r' & EA & RC & RE)|(ks' & e & EA & RF)].
    + rewrite EA in HX. destruct (G (OpAdd ds s (if size =? -1 then None else Some size)) ks' r' HC EA RC RE) as (g1 & HW & A & B & C).
      rewrite HW in HX. apply pair_inj in HX as [<- <-]. left. split; [reflexivity|]. split; [exact A|]. split; [exact B|]. split; [exact C | intros m E; discriminate E].
    + rewrite EA in HX. apply pair_inj in HX as [<- <-]. right. split; [exists e; reflexivity|]. split; [reflexivity | exact RF].
  - unfold PromoteCmd in HX. rewrite (exec_change _ _ _ _ _ _ HL) in HX. destruct (n <? 0) eqn:EN.
    { apply pair_inj in HX as [<- <-]. right. split; [eexists; reflexivity|]. split; [reflexivity | left; lia]. }
    destruct (CP n) as (DP & _). unfold does in DP. destruct (ring_promote (ring_of ks) n) as [r'|] eqn:ER.
    + destruct (Promote ks n) as [ks' r0] eqn:EA. cbn [fst snd] in DP. destruct DP as [-> RE].
      destruct (G (OpPromote n) ks' r' Logic.I EA (RingPromote _ _ _ _ (proj1 (Z.ltb_ge _ _) EN) ER) RE) as (g1 & HW & A & B & C).
      rewrite HW in HX. apply pair_inj in HX as [<- <-]. left. split; [reflexivity|]. split; [exact A|]. split; [exact B|]. split; [exact C | intros m E; discriminate E].
    + rewrite DP in HX. apply pair_inj in HX as [<- <-]. right. split; [eexists; reflexivity|]. split; [reflexivity | right; exact ER].
  - unfold DemoteCmd in HX. rewrite (exec_change _ _ _ _ _ _ HL) in HX. destruct (n <? 0) eqn:EN.
    { apply pair_inj in HX as [<- <-]. right. split; [eexists; reflexivity|]. split; [reflexivity | left; lia]. }
    destruct (CP n) as (_ & DP & _). unfold does in DP. destruct (ring_demote (ring_of ks) n) as [r'|] eqn:ER.
    + destruct (Demote ks n) as [ks' r0] eqn:EA. cbn [fst snd] in DP. destruct DP as [-> RE].
      destruct (G (OpDemote n) ks' r' Logic.I EA (RingDemote _ _ _ _ (proj1 (Z.ltb_ge _ _) EN) ER) RE) as (g1 & HW & A & B & C).
      rewrite HW in HX. apply pair_inj in HX as [<- <-]. left. split; [reflexivity|]. split; [exact A|]. split; [exact B|]. split; [exact C | intros m E; discriminate E].
    + rewrite DP in HX. apply pair_inj in HX as [<- <-]. right. split; [eexists; reflexivity|]. split; [reflexivity | right; exact ER].
  - unfold RevokeCmd in HX. rewrite exec_bind, (exec_change _ _ _ _ _ _ HL) in HX. destruct (n <? 0) eqn:EN.
    { apply pair_inj in HX as [<- <-]. right. split; [eexists; reflexivity|]. split; [reflexivity | left; lia]. }
    destruct (CP n) as (_ & _ & DP). unfold does in DP. destruct (ring_revoke (ring_of ks) n) as [r'|] eqn:ER.
    2:{ rewrite DP in HX. apply pair_inj in HX as [<- <-]. right. split; [eexists; reflexivity|]. split; [reflexivity | right; exact ER]. }
    unfold ring_revoke in ER. destruct (ring_of ks n) as [[st k]|] eqn:ERN; [|discriminate]. destruct st; try discriminate.
    destruct (Revoke ks n) as [ks' r0] eqn:EA. cbn [fst snd] in DP. destruct DP as [-> RE].
    pose proof (Revoke_ok ks n k I ERN) as RO. rewrite EA in RO. apply pair_inj in RO as [EK _].
    destruct (NM (OpRevoke n) Logic.I) as (M' & N1 & N2 & N3). cbn [step] in *. rewrite EA in M', N1, N2, N3. cbn [fst] in M', N1, N2, N3.
    destruct (WriteSet_total ks' l es f HD (made_wf _ M')) as (g1 & HW). rewrite HW in HX.
    destruct (WriteSet_spec _ _ _ _ _ _ _ (made_inv _ M') HW) as (_ & _ & S3 & S4 & _ & S6).
    destruct (ring_entry ks n INACTIVE k I ERN) as (o & A1 & A2 & _ & _).
    assert (HF : exists s, file g1 l (key_file n) = Some s).
    { rewrite <- (proj2 (inv_mvers ks I n o (assoc_In Z.eqb_eq A1))). assert (HI : In (o, k) (ks_vkeys ks')) by (rewrite EK; exact (assoc_In Nat.eqb_eq A2)).
      destruct (S6 eq_refl (o, k) HI) as (e & s & _ & EF). exists s. unfold num_of in EF. cbn [fst] in EF. rewrite EK in EF. exact EF. }
    destruct HF as (sf & HF). unfold CreateWriter, first_accepting, FileWriter_CreateWriter in HX. cbn [pbind exec] in HX. rewrite S3, HD in HX. cbn [pbind exec RemoveKey] in HX.
    rewrite HF in HX. apply pair_inj in HX as [<- <-].
    pose proof (WriteSet_on_disk _ _ _ _ _ _ (made_inv _ M') HW) as [D1 D2].
    assert (OD : on_disk (del_file g1 l (key_file n)) l None ks').
    { split.
      - rewrite file_del, str_eqb_refl, key_meta_eqb. cbn [andb]. exact D1.
      - intros n0 o0 k0 H1 H2. destruct (D2 n0 o0 k0 H1 H2) as (e & s & ES & EF). exists e, s. split; [exact ES|].
        rewrite file_del, str_eqb_refl, key_file_eqb. cbn [andb]. destruct (n =? n0) eqn:E; [|exact EF]. exfalso. apply Z.eqb_eq in E as <-.
        assert (C : ring_of ks' n <> None) by (destruct (ring_known ks' n o0 (made_inv _ M') (assoc_NoDup Z.eqb_eq (inv_mkeys ks' (made_inv _ M')) H1)) as (k2 & _ & C); congruence).
        rewrite EK, ring_revoke_eq, Z.eqb_refl in C. contradiction (C eq_refl). }
    assert (HN' : text_ok (ks_name ks')) by (rewrite N1; exact HN).
    destruct (reopen_disk ks' l None None _ GenericKeyczar (made_inv _ M') (made_wf _ M') HN' Logic.I OD (generic_ok _)) as (ks2 & O1 & O2 & O3).
    left. split; [reflexivity|]. split; [|split; [|split]].
    + exists ks2, r'. split; [unfold loadable; rewrite exec_open, O1; reflexivity|]. split; [pose proof (f_equal m_name O2) as E; cbn in E; congruence|].
      split; [pose proof (f_equal m_purpose O2) as E; cbn in E; congruence|]. split; [pose proof (f_equal m_type O2) as E; cbn in E; congruence|].
      split; [apply RingRevoke; [lia | unfold ring_revoke; rewrite ERN; exact ER]|]. intros m. rewrite O3. apply RE.
    + intros l' n' HL'. rewrite file_del, (str_eqb_neq l l') by congruence. cbn [andb]. apply S4. left. exact HL'.
    + intros l'. rewrite has_dir_del. apply S3.
    + intros m E. injection E as <-. rewrite file_del, !str_eqb_refl. reflexivity.
Qed.
Print Assumptions C47_command.

(** Any number of commands, one after the other, after creating a key set. *)
Fixpoint exec_all (l : str) (cs : list (kcmd * (nat -> env))) (f : disk) : disk :=
  match cs with [] => f | (c, es) :: cs' => exec_all l cs' (fst (exec (kcmd_prog l c es) f)) end.
(** Each command either does what it does to a ring, or is refused. *)
Inductive ring_history (t : ktype) (r : ring) : list kcmd -> ring -> Prop :=
| HistNil : ring_history t r [] r
| HistDone c r1 r2 cs r' : ring_cmd t r c r1 -> (forall n, r2 n = r1 n) -> ring_history t r2 cs r' -> ring_history t r (c :: cs) r'
| HistRefused c cs r' : refused t r c -> ring_history t r cs r' -> ring_history t r (c :: cs) r'.

Theorem C47_histories : forall f l name p a t cs, has_dir f l = true -> file f l meta_file = None -> text_ok name -> implied p a t ->
  Forall (fun x => kcmd_ok (fst x)) cs ->
  exists f0, exec (Create (Some l) name (Some p) a) f = (f0, Ok tt) /\
  let g := exec_all l cs f0 in
  exists ks r0, loadable g l ks /\ ks_name ks = name /\ ks_purpose ks = p /\ ks_type ks = t /\
    (forall n, r0 n = empty_ring n) /\ ring_history t r0 (map fst cs) (ring_of ks) /\
    (forall l' n', l' <> l -> file g l' n' = file f l' n').
Proof.
  intros f l name p a t cs HD HF HN HI HC. destruct (C46_create_fresh f l name p a t HD HF HN HI) as (f0 & s & E & EF & ks & L & N1 & N2 & N3 & _ & _ & RE).
  exists f0. split; [exact E|]. cbv zeta.
  assert (G : forall cs f0 ks, Forall (fun x => kcmd_ok (fst x)) cs -> loadable f0 l ks -> text_ok (ks_name ks) ->
    exists ks', loadable (exec_all l cs f0) l ks' /\ ks_name ks' = ks_name ks /\ ks_purpose ks' = ks_purpose ks /\ ks_type ks' = ks_type ks /\
      ring_history (ks_type ks) (ring_of ks) (map fst cs) (ring_of ks') /\
      (forall l' n', l' <> l -> file (exec_all l cs f0) l' n' = file f0 l' n')).
  { clear. induction cs as [|[c es] cs IH]; intros f0 ks HC L HN; cbn [exec_all map fst].
    - exists ks. split; [exact L|]. repeat (split; [reflexivity|]). split; [constructor | reflexivity].
    - destruct (exec (kcmd_prog l c es) f0) as [g r] eqn:EX. cbn [fst].
      destruct (C47_command l f0 ks c es g r L HN (Forall_inv HC) EX) as [(_ & (ks1 & r1 & L1 & A1 & A2 & A3 & RC & RE) & S1 & _)|(_ & -> & RF)].
      + assert (HN1 : text_ok (ks_name ks1)) by (rewrite A1; exact HN).
        destruct (IH g ks1 (Forall_inv_tail HC) L1 HN1) as (ks' & L' & B1 & B2 & B3 & RH & S2).
        exists ks'. split; [exact L'|]. split; [congruence|]. split; [congruence|]. split; [congruence|]. rewrite A3 in RH.
        split; [apply (HistDone _ _ c r1 (ring_of ks1)); assumption|]. intros l' n' HL. rewrite S2, S1 by exact HL. reflexivity.
      + destruct (IH f0 ks (Forall_inv_tail HC) L HN) as (ks' & L' & B1 & B2 & B3 & RH & S2).
        exists ks'. split; [exact L'|]. repeat (split; [assumption|]). split; [apply HistRefused; assumption | exact S2]. }
  assert (HNk : text_ok (ks_name ks)) by (rewrite N1; exact HN).
  destruct (G cs f0 ks HC L HNk) as (ks' & L' & B1 & B2 & B3 & RH & S2). exists ks', (ring_of ks).
  split; [exact L'|]. split; [congruence|]. split; [congruence|]. split; [congruence|]. split; [exact RE|]. split; [rewrite N3 in RH; exact RH|].
  intros l' n' HL. rewrite S2, EF by exact HL. rewrite (str_eqb_neq l l') by congruence. reflexivity.
Qed.
Print Assumptions C47_histories.

(** With a crypter that decrypts what it encrypts and never fails (an AES set with a primary key,
    see C43), [addkey --crypter] refines the ring in the same way. *)
Theorem C47_addkey_encrypted : forall l f ks cr n k kb hb s size ds es g r, reached cr -> ids_distinct cr -> ks_type cr = AES ->
  ring_of cr n = Some (PRIMARY, KAes k) -> aes_material k kb hb -> aes_size_ok kb ->
  exec (open_files GenericKeyczar l (Some cr)) f = (f, Ok ks) -> text_ok (ks_name ks) -> draws_ok (OpAdd ds s None) ->
  exec (AddKeyCmd (Some l) s (Some cr) size ds es) f = (g, r) ->
  (r = Ok tt /\ (exists ks' r', exec (open_files GenericKeyczar l (Some cr)) g = (g, Ok ks') /\ ks_encrypted ks' = true /\
     ks_name ks' = ks_name ks /\ ks_purpose ks' = ks_purpose ks /\ ks_type ks' = ks_type ks /\
     ring_cmd (ks_type ks) (ring_of ks) (CmdAddKey s size ds) r' /\ forall n, ring_of ks' n = r' n) /\
   (forall l' n', l' <> l -> file g l' n' = file f l' n')) \/
  ((exists e, r = Raise e) /\ g = f /\ refused (ks_type ks) (ring_of ks) (CmdAddKey s size ds)).
Proof.
  intros l f ks cr n k kb hb s size ds es g r RC DC TC PC MC SC HO HN HD HX. rewrite exec_open in HO. apply pair_inj in HO as [_ HO].
  pose proof (made_open _ _ _ HO) as M. pose proof (made_inv _ M) as I. pose proof (opened_dir _ _ _ _ _ HO) as HDir.
  rewrite (exec_add l (Some cr) s size ds es f ks HO) in HX. destruct (add_loaded _ _ ks ds s size HO HD) as [(ks' & r' & EA & RR & RE)|(ks' & e & EA & RF)]; rewrite EA in HX.
  - set (o := OpAdd ds s (if size =? -1 then None else Some size)). assert (ES : fst (step ks o) = ks') by (cbn [step o]; rewrite EA; reflexivity).
    assert (M' : made ks') by (rewrite <- ES, step_run; apply made_run; [exact M | repeat constructor; exact HD]).
    destruct (name_step ks o I) as (A1 & A2 & A3 & _). rewrite ES in A1, A2, A3.
    destruct (C43_writing_with_aes_succeeds ks' l cr es f n k kb hb M' HDir RC PC MC SC) as (g1 & HW). rewrite HW in HX. apply pair_inj in HX as [<- <-].
    assert (HN' : text_ok (ks_name ks')) by (rewrite A1; exact HN).
    assert (RB : reads_back (Some cr) (Some cr)) by (intros e0 s0 ct; apply C43_aes_sets_decrypt_what_they_encrypt; assumption).
    destruct (stored_again ks' l (Some cr) (Some cr) es f g1 M' HN' RB HW) as (S1 & _ & ks2 & S3 & (E1 & E2 & E3 & _ & E5 & _) & E6).
    left. split; [reflexivity|]. split; [|exact S1]. exists ks2, r'. split; [rewrite exec_open, S3; reflexivity|]. split; [exact E6|].
    split; [congruence|]. split; [congruence|]. split; [congruence|]. split; [exact RR|]. intros m. rewrite E5. apply RE.
  - apply pair_inj in HX as [<- <-]. right. split; [exists e; reflexivity|]. split; [reflexivity | exact RF].
Qed.
Print Assumptions C47_addkey_encrypted.

(** The other commands take no crypter: on an encrypted set they are refused and change nothing. *)
Theorem C47_encrypted_sets_refuse_changes : forall l f s m c es, has_dir f l = true -> file f l meta_file = Some s -> meta_Read s = Ok m -> m_encrypted m = true ->
  exec (kcmd_prog l c es) f = (f, Raise KeyczarError).
Proof.
  intros l f s m c es HD HF HR HE.
  assert (E : exec (CreateGenericKeyczar (Some l) None) f = (f, Raise KeyczarError)).
  { rewrite exec_generic, HD. cbn [disk_reader]. unfold file_reader. rewrite HF. cbn [answer].
    rewrite (C33_refused_before_reading_keys GenericKeyczar s m false HR); [reflexivity | right; split; [exact HE | reflexivity]]. }
  destruct c; cbn [kcmd_prog]; unfold AddKeyCmd, PromoteCmd, DemoteCmd, RevokeCmd, ChangeCmd; rewrite ?exec_bind, E; reflexivity.
Qed.
Print Assumptions C47_encrypted_sets_refuse_changes.

(** REFUTED when encrypting fails: with crypting keys none of which is primary, [addkey] raises
    after it has written the metadata, and the set cannot be loaded any more, with any crypter. *)
Definition no_genkey (l : option str) : prog unit := Done (Raise KeyczarError).
Definition tool (args : list string) (ds : list draw) (f : disk) : disk * res unit := exec (main no_genkey (map bs args) ds one_env) f.
Theorem C47_failed_encryption_refuted : exists f1 f2 f3 ks,
  tool ["demote"; "--location=/aes"; "--version=2"]%string [] test_disk = (f1, Ok tt) /\
  tool ["create"; "--location=/new"; "--purpose=sign"]%string [] f1 = (f2, Ok tt) /\
  loadable f2 (bs "/new") ks /\
  tool ["addkey"; "--location=/new"; "--crypter=/aes"]%string [zero_draw x07] f2 = (f3, Raise (KeyNotFoundError (bs "None"))) /\
  forall cr c, exec (open_files c (bs "/new") cr) f3 = (f3, Raise KeyczarError).
Proof.
  eexists _, _, _, _. split; [vm_compute; reflexivity|]. split; [vm_compute; reflexivity|]. split; [vm_compute; reflexivity|].
  split; [vm_compute; reflexivity|]. intros [cr|] []; vm_compute; reflexivity.
Qed.
Print Assumptions C47_failed_encryption_refuted.

Example C47_case : has_dir test_disk (bs "/new") = true /\ file test_disk (bs "/new") meta_file = None /\ implied SIGN_AND_VERIFY None HMAC_SHA1 /\
  let cs := [(CmdAddKey PRIMARY (-1) [zero_draw x01], one_env); (CmdAddKey PRIMARY 256 [zero_draw x01; zero_draw x02], one_env);
             (CmdDemote 1, one_env); (CmdRevoke 2, one_env); (CmdRevoke 1, one_env)] in
  Forall (fun x => kcmd_ok (fst x)) cs /\
  exists f0 ks k, exec (Create (Some (bs "/new")) (text_of_str (bs "n")) (Some SIGN_AND_VERIFY) None) test_disk = (f0, Ok tt) /\
    loadable (exec_all (bs "/new") cs f0) (bs "/new") ks /\ ring_of ks 2 = Some (PRIMARY, k) /\ ring_of ks 1 = None.
Proof.
  split; [reflexivity|]. split; [reflexivity|]. split; [constructor|]. split; [repeat constructor; cbn; lia|].
  eexists _, _, _. split; [vm_compute; reflexivity|]. split; [vm_compute; reflexivity|]. split; vm_compute; reflexivity.
Qed.

(** ** C31: revoking on disk *)

(** [keyczart revoke] deletes the key file, and no set loaded afterwards has the version. *)
Theorem C31_revoke_command : forall l f ks n k id es, loadable f l ks -> text_ok (ks_name ks) -> ids_distinct ks -> 0 <= n ->
  ring_of ks n = Some (INACTIVE, k) -> key_hash_id k = Ok (Base64WSEncode id) -> len id = 4 ->
  exists g, exec (RevokeCmd (Some l) n es) f = (g, Ok tt) /\ file g l (key_file n) = None /\
    forall c ks2, exec (open_files c l None) g = (g, Ok ks2) -> ring_of ks2 n = None /\
      (forall rest, Decrypt ks2 (x00 :: id ++ rest) None = Raise (KeyNotFoundError (Base64WSEncode id))) /\
      (forall data rest, Verify ks2 data (x00 :: id ++ rest) None = Raise (KeyNotFoundError (Base64WSEncode id))).
Proof.
  intros l f ks n k id es HL HN D Hn HR HH HI. destruct (exec (RevokeCmd (Some l) n es) f) as [g r] eqn:EX.
  pose proof (C47_command l f ks (CmdRevoke n) es g r HL HN Logic.I EX) as [(-> & (ks' & r' & L' & _ & _ & _ & RC & RE) & _ & _ & RV)|(_ & _ & [C|C])].
  2: lia. 2: unfold ring_revoke in C; rewrite HR in C; discriminate.
  exists g. split; [reflexivity|]. split; [apply RV; reflexivity|]. intros c ks2 HO. rewrite exec_open in HO. apply pair_inj in HO as [_ HO].
  pose proof (loadable_open _ _ _ L') as LO. pose proof (made_inv _ (made_open _ _ _ (loadable_open _ _ _ HL))) as I.
  assert (E2 : forall m, ring_of ks2 m = ring_of ks' m).
  { intros m. pose proof HO as H1. pose proof LO as H2. apply open_ok in H1 as (s1 & m1 & l1 & A1 & A2 & _). apply open_ok in H2 as (s2 & m2 & l2 & B1 & B2 & _).
    cbn [disk_reader] in *. rewrite A1 in B1. apply Ok_inj in B1 as <-. rewrite A2 in B2. apply Ok_inj in B2 as <-.
    rewrite (open_ring _ _ _ _ _ HO A1 A2 m), (open_ring _ _ _ _ _ LO A1 A2 m). reflexivity. }
  assert (ER : forall m, ring_of ks2 m = if m =? n then None else ring_of ks m).
  { intros m. rewrite E2, RE. inversion RC as [| | |? ? _ RR]; subst. unfold ring_revoke in RR. rewrite HR in RR. apply Some_inj in RR as <-. reflexivity. }
  assert (NN : forall k', ~ named ks2 [] id k').
  { intros k' [(before & after & m & s & EB & HM) HK]. symmetry in EB. apply app_eq_nil in EB as [-> _]. cbn [run fold_left] in HM. rewrite ER in HM. destruct (m =? n) eqn:E; [discriminate|].
    assert (m = n) by (apply (ring_ids ks I D m n s INACTIVE k' k HM HR); congruence). lia. }
  split; [rewrite ER, Z.eqb_refl; reflexivity|]. split.
  - intros rest. apply (proj2 (C34_decrypt_dispatch _ _ _ [] HO) x00 id rest HI); [reflexivity | exact NN].
  - intros data rest. apply (proj2 (C34_verify_dispatch _ _ _ [] HO) data x00 id rest HI); [reflexivity | exact NN].
Qed.
Print Assumptions C31_revoke_command.

(** ** C48: crashes *)

Definition op_of (c : kcmd) : op :=
  match c with
  | CmdAddKey s size ds => OpAdd ds s (if size =? -1 then None else Some size)
  | CmdPromote n => OpPromote n | CmdDemote n => OpDemote n | CmdRevoke n => OpRevoke n
  end.

Lemma during_update f l ks es g : during f (UpdateGenericKeyczar ks (Some l) None es) g -> g = f \/ during f (WriteSet ks l None es) g.
Proof.
  intros H. unfold UpdateGenericKeyczar in H. apply during_bind in H as [H|(f1 & a & HX & H)]; [left; apply (during_reads _ (reads_writer l) _ _ H)|].
  pose proof (exec_reads _ (reads_writer l) f) as E. rewrite HX in E. cbn [fst] in E. subst f1. right. exact H.
Qed.
Lemma update_during f l ks es g : has_dir f l = true -> during f (WriteSet ks l None es) g -> during f (UpdateGenericKeyczar ks (Some l) None es) g.
Proof.
  intros HD H. unfold UpdateGenericKeyczar. apply (during_bind_r _ _ f f IsFileWriter); [|exact H].
  unfold CreateWriter, first_accepting, FileWriter_CreateWriter. cbn [pbind exec]. rewrite HD. reflexivity.
Qed.
Lemma generic_exec f l ks : loadable f l ks -> exec (CreateGenericKeyczar (Some l) None) f = (f, Ok ks).
Proof. intros H. apply loadable_open in H. rewrite exec_generic, (opened_dir f l None ks _ H). cbn [disk_reader]. rewrite H. reflexivity. Qed.

Lemma during_change change f l n es ks : loadable f l ks ->
  (forall g, during f (ChangeCmd change (Some l) n es) g -> g = f \/ exists ks', change ks n = (ks', Ok tt) /\ during f (WriteSet ks' l None es) g) /\
  (forall ks' g, 0 <= n -> change ks n = (ks', Ok tt) -> during f (WriteSet ks' l None es) g -> during f (ChangeCmd change (Some l) n es) g).
Proof.
  intros H. pose proof (generic_exec _ _ _ H) as EG. unfold ChangeCmd. split.
  - intros g HD. apply during_bind in HD as [HD|(f1 & a & HX & HD)]; [left; apply (during_reads _ (reads_generic _ _) _ _ HD)|].
    rewrite EG in HX. apply pair_inj in HX as [<- HX]. apply Ok_inj in HX as <-. destruct (n <? 0); [left; apply during_Done in HD; exact HD|].
    destruct (change ks n) as [ks' [[]|e]]; cbn [pure pbind] in HD; [|left; apply during_Done in HD; exact HD].
    apply during_update in HD as [HD|HD]; [left; exact HD | right; exists ks'; split; [reflexivity | exact HD]].
  - intros ks' g Hn HC HD. apply (during_bind_r _ _ f f ks _ EG). destruct (n <? 0) eqn:E; [lia|]. rewrite HC. cbn [pure pbind].
    apply update_during; [|exact HD]. apply (opened_dir f l None ks _ (loadable_open _ _ _ H)).
Qed.

Lemma during_add f l s size ds es ks : loadable f l ks -> let sz := if size =? -1 then None else Some size in
  (forall g, during f (AddKeyCmd (Some l) s None size ds es) g -> g = f \/ exists ks', AddVersion ks ds s sz = (ks', Ok tt) /\ during f (WriteSet ks' l None es) g) /\
  (forall ks' g, AddVersion ks ds s sz = (ks', Ok tt) -> during f (WriteSet ks' l None es) g -> during f (AddKeyCmd (Some l) s None size ds es) g).
Proof.
  intros H sz. pose proof (generic_exec _ _ _ H) as EG. unfold AddKeyCmd. split.
  - intros g HD. apply during_bind in HD as [HD|(f1 & a & HX & HD)]; [left; apply (during_reads _ (reads_generic _ _) _ _ HD)|].
    rewrite EG in HX. apply pair_inj in HX as [<- HX]. apply Ok_inj in HX as <-. fold sz in HD.
    destruct (AddVersion ks ds s sz) as [ks' [[]|e]]; cbn [pure pbind] in HD; [|left; apply during_Done in HD; exact HD].
    apply during_update in HD as [HD|HD]; [left; exact HD | right; exists ks'; split; [reflexivity | exact HD]].
  - intros ks' g HC HD. apply (during_bind_r _ _ f f ks _ EG). fold sz. rewrite HC. cbn [pure pbind].
    apply update_during; [|exact HD]. apply (opened_dir f l None ks _ (loadable_open _ _ _ H)).
Qed.

(** A command is the writing of one new key set, and for [revoke] the deletion of a file. *)
Lemma cmd_shape l f ks c es : loadable f l ks -> text_ok (ks_name ks) -> kcmd_ok c ->
  (exists e, exec (kcmd_prog l c es) f = (f, Raise e) /\ forall g, during f (kcmd_prog l c es) g -> g = f) \/
  (exists ks' r', step ks (op_of c) = (ks', Ok tt) /\ ring_cmd (ks_type ks) (ring_of ks) c r' /\ (forall n, ring_of ks' n = r' n) /\
   (forall g, during f (WriteSet ks' l None es) g -> during f (kcmd_prog l c es) g) /\
   (forall g, during f (kcmd_prog l c es) g -> g = f \/ during f (WriteSet ks' l None es) g \/
      exists n g1, c = CmdRevoke n /\ exec (WriteSet ks' l None es) f = (g1, Ok tt) /\ g = del_file g1 l (key_file n))).
Proof.
  intros HL HN HC. pose proof (loadable_open _ _ _ HL) as HO. pose proof (opened_dir f l None ks _ HO) as HD.
  pose proof (fun n => C28_promote_demote_revoke _ _ ks [] n HO) as CP. cbn [run fold_left] in CP.
  destruct c as [s size ds|n|n|n]; cbn [kcmd_prog op_of step].
  - destruct (during_add f l s size ds es ks HL) as [D1 D2]. rewrite (exec_add l None s size ds es f ks HO).
    destruct (add_loaded _ _ ks ds s size HO HC) as [(ks' & r' & EA & RC & RE)|(ks' & e & EA & RF)].
    + right. exists ks', r'. split; [exact EA|]. split; [exact RC|]. split; [exact RE|]. split; [intros g; apply (D2 ks' g EA)|].
      intros g Hg. destruct (D1 g Hg) as [->|(ks2 & E2 & Hw)]; [left; reflexivity|]. right. left. rewrite EA in E2. apply pair_inj in E2 as [<- _]. exact Hw.
    + left. exists e. rewrite EA. split; [reflexivity|]. intros g Hg. destruct (D1 g Hg) as [->|(ks2 & E2 & Hw)]; [reflexivity|]. rewrite EA in E2. apply pair_inj in E2 as [_ E2]. discriminate.
  - unfold PromoteCmd. destruct (during_change Promote f l n es ks HL) as [D1 D2]. rewrite (exec_change _ _ _ _ _ _ HL). destruct (n <? 0) eqn:EN.
    { left. eexists. split; [reflexivity|]. intros g Hg. unfold ChangeCmd in Hg. apply during_bind in Hg as [Hg|(f1 & a & HX & Hg)]; [apply (during_reads _ (reads_generic _ _) _ _ Hg)|].
      rewrite (generic_exec _ _ _ HL) in HX. apply pair_inj in HX as [<- HX]. rewrite EN in Hg. apply during_Done in Hg. exact Hg. }
    destruct (CP n) as (DP & _). unfold does in DP. destruct (ring_promote (ring_of ks) n) as [r'|] eqn:ER.
    + right. destruct (Promote ks n) as [ks' r0] eqn:EA. cbn [fst snd] in DP. destruct DP as [-> RE]. exists ks', r'. split; [reflexivity|].
      split; [apply RingPromote; [lia | exact ER]|]. split; [exact RE|]. split; [intros g; apply (D2 ks' g (proj1 (Z.ltb_ge _ _) EN) eq_refl)|].
      intros g Hg. destruct (D1 g Hg) as [->|(ks2 & E2 & Hw)]; [left; reflexivity|]. right. left. apply pair_inj in E2 as [<- _]. exact Hw.
    + left. rewrite DP in *. eexists. split; [reflexivity|]. intros g Hg. destruct (D1 g Hg) as [->|(ks2 & E2 & Hw)]; [reflexivity|]. apply pair_inj in E2 as [_ E2]. discriminate.
  - unfold DemoteCmd. destruct (during_change Demote f l n es ks HL) as [D1 D2]. rewrite (exec_change _ _ _ _ _ _ HL). destruct (n <? 0) eqn:EN.
    { left. eexists. split; [reflexivity|]. intros g Hg. unfold ChangeCmd in Hg. apply during_bind in Hg as [Hg|(f1 & a & HX & Hg)]; [apply (during_reads _ (reads_generic _ _) _ _ Hg)|].
      rewrite (generic_exec _ _ _ HL) in HX. apply pair_inj in HX as [<- HX]. rewrite EN in Hg. apply during_Done in Hg. exact Hg. }
    destruct (CP n) as (_ & DP & _). unfold does in DP. destruct (ring_demote (ring_of ks) n) as [r'|] eqn:ER.
    + right. destruct (Demote ks n) as [ks' r0] eqn:EA. cbn [fst snd] in DP. destruct DP as [-> RE]. exists ks', r'. split; [reflexivity|].
      split; [apply RingDemote; [lia | exact ER]|]. split; [exact RE|]. split; [intros g; apply (D2 ks' g (proj1 (Z.ltb_ge _ _) EN) eq_refl)|].
      intros g Hg. destruct (D1 g Hg) as [->|(ks2 & E2 & Hw)]; [left; reflexivity|]. right. left. apply pair_inj in E2 as [<- _]. exact Hw.
    + left. rewrite DP in *. eexists. split; [reflexivity|]. intros g Hg. destruct (D1 g Hg) as [->|(ks2 & E2 & Hw)]; [reflexivity|]. apply pair_inj in E2 as [_ E2]. discriminate.
  - unfold RevokeCmd. destruct (during_change Revoke f l n es ks HL) as [D1 D2]. rewrite exec_bind, (exec_change _ _ _ _ _ _ HL). destruct (n <? 0) eqn:EN.
    { left. eexists. split; [reflexivity|]. intros g Hg. apply during_bind in Hg as [Hg|(f1 & a & HX & Hg)].
      - unfold ChangeCmd in Hg. apply during_bind in Hg as [Hg|(f1 & a & HX & Hg)]; [apply (during_reads _ (reads_generic _ _) _ _ Hg)|].
        rewrite (generic_exec _ _ _ HL) in HX. apply pair_inj in HX as [<- HX]. rewrite EN in Hg. apply during_Done in Hg. exact Hg.
      - rewrite (exec_change _ _ _ _ _ _ HL), EN in HX. apply pair_inj in HX as [_ HX]. discriminate. }
    destruct (CP n) as (_ & _ & DP). unfold does in DP. destruct (ring_revoke (ring_of ks) n) as [r'|] eqn:ER.
    + right. destruct (Revoke ks n) as [ks' r0] eqn:EA. cbn [fst snd] in DP. destruct DP as [-> RE]. exists ks', r'. split; [reflexivity|].
      split; [apply RingRevoke; [lia | exact ER]|]. split; [exact RE|].
      split; [intros g Hg; apply during_bind_l, (D2 ks' g (proj1 (Z.ltb_ge _ _) EN) eq_refl Hg)|].
      intros g Hg. apply during_bind in Hg as [Hg|(f1 & [] & HX & Hg)].
      * destruct (D1 g Hg) as [->|(ks2 & E2 & Hw)]; [left; reflexivity|]. right. left. apply pair_inj in E2 as [<- _]. exact Hw.
      * rewrite (exec_change _ _ _ _ _ _ HL), EN, EA in HX. right. apply during_bind in Hg as [Hg|(f2 & a & HX2 & Hg)].
        -- apply (during_reads _ (reads_writer l)) in Hg as ->. left. apply (during_end _ _ _ _ HX).
        -- pose proof (exec_reads _ (reads_writer l) f1) as E. rewrite HX2 in E. cbn [fst] in E. subst f2. unfold RemoveKey in Hg.
           apply during_cases in Hg as [->|[(l0 & n0 & d0 & d1 & d2 & k0 & EP & _)|(f' & p' & ES & HS)]]; [left; apply (during_end _ _ _ _ HX) | discriminate EP|].
           cbn [dstep] in ES. destruct (file f1 l (key_file n)); apply pair_inj in ES as [<- <-]; apply during_Done in HS as ->;
             [right; exists n, f1; split; [reflexivity|]; split; [exact HX | reflexivity] | left; apply (during_end _ _ _ _ HX)].
    + left. rewrite DP in *. eexists. split; [reflexivity|]. intros g Hg. apply during_bind in Hg as [Hg|(f1 & [] & HX & Hg)].
      * destruct (D1 g Hg) as [->|(ks2 & E2 & Hw)]; [reflexivity|]. apply pair_inj in E2 as [_ E2]. discriminate.
      * rewrite (exec_change _ _ _ _ _ _ HL), EN, DP in HX. apply pair_inj in HX as [_ HX]. discriminate.
Qed.

(** A command that fails leaves nothing behind, wherever it is interrupted. *)
Theorem C48_failing_commands : forall l f ks c es g e g', loadable f l ks -> text_ok (ks_name ks) -> kcmd_ok c ->
  exec (kcmd_prog l c es) f = (g, Raise e) -> during f (kcmd_prog l c es) g' -> g' = f.
Proof.
  intros l f ks c es g e g' HL HN HC HX HD. destruct (cmd_shape l f ks c es HL HN HC) as [(e' & _ & H)|(ks' & r' & ES & RC & _)]; [apply H, HD|].
  exfalso. destruct (C47_command l f ks c es g (Raise e) HL HN HC HX) as [(C & _)|(_ & -> & RF)]; [discriminate|].
  destruct RC as [s size ds d n k A1 A2 A3 A4 A5|n r' A1 A2|n r' A1 A2|n r' A1 A2]; cbn [refused] in RF.
  2-4: destruct RF as [RF|RF]; [lia | congruence].
  pose proof (made_inv _ (made_open _ _ _ (loadable_open _ _ _ HL))) as I. cbn [kcmd_prog] in HX.
  rewrite (exec_add l None s size ds es f ks (loadable_open _ _ _ HL)) in HX. cbn [op_of step] in ES. rewrite ES in HX.
  destruct (WriteSet_total ks' l es f (opened_dir f l None ks _ (loadable_open _ _ _ HL))) as (g2 & HW); [|congruence].
  change ks' with (fst (ks', Ok tt)). rewrite <- ES. change (AddVersion ks ds s _) with (step ks (OpAdd ds s (if size =? -1 then None else Some size))).
  apply (keys_wf_step ks _ I); [apply made_wf, (made_open _ _ _ (loadable_open _ _ _ HL)) | exact HC].
Qed.
Print Assumptions C48_failing_commands.

(** REFUTED for every command that succeeds: it may die when it has emptied the metadata file,
    and then no class loads the set, with any crypter. *)
Theorem C48_metadata_lost_refuted : forall l f ks c es g, loadable f l ks -> text_ok (ks_name ks) -> kcmd_ok c ->
  exec (kcmd_prog l c es) f = (g, Ok tt) ->
  exists g', during f (kcmd_prog l c es) g' /\ forall cl cr, exists e, exec (open_files cl l cr) g' = (g', Raise e).
Proof.
  intros l f ks c es g HL HN HC HX. pose proof (opened_dir f l None ks _ (loadable_open _ _ _ HL)) as HD.
  destruct (cmd_shape l f ks c es HL HN HC) as [(e' & C & _)|(ks' & r' & ES & _ & _ & H & _)]; [congruence|].
  destruct (during_opened f (meta_text ks' None) l meta_file HD) as (g' & D & S). exists g'. split.
  - apply H. unfold WriteSet, WriteMetadata, pure. rewrite meta_str_eq. cbn [pbind]. apply during_bind_l. exact D.
  - intros cl cr. rewrite exec_open. assert (E : rd_meta (disk_reader g' l cr) = Ok []).
    { assert (E0 : rd_meta (disk_reader g' l cr) = answer (file g' l meta_file)) by (destruct cr; reflexivity). rewrite E0, (set_to_this _ _ _ _ _ S). reflexivity. }
    unfold open_keyset. rewrite E. cbn [bind]. destruct (meta_Read []) as [m|e] eqn:EM; [vm_compute in EM; discriminate EM|]. exists e. reflexivity.
Qed.
Print Assumptions C48_metadata_lost_refuted.

(** REFUTED also for keys: each key the set keeps is rewritten in place, and may be lost, though
    the command was not about it. *)
Theorem C48_key_material_lost_refuted : forall l f ks c es g n s k, loadable f l ks -> text_ok (ks_name ks) -> kcmd_ok c ->
  exec (kcmd_prog l c es) f = (g, Ok tt) -> ring_of ks n = Some (s, k) ->
  exists g', during f (kcmd_prog l c es) g' /\ file g' l (key_file n) = Some [].
Proof.
  intros l f ks c es g n s k HL HN HC HX HR. pose proof (opened_dir f l None ks _ (loadable_open _ _ _ HL)) as HD.
  pose proof (made_open _ _ _ (loadable_open _ _ _ HL)) as M. pose proof (made_inv _ M) as I.
  destruct (cmd_shape l f ks c es HL HN HC) as [(e' & C & _)|(ks' & r' & ES & _ & _ & H & _)]; [congruence|].
  assert (DO : draws_ok (op_of c)) by (destruct c; exact HC).
  assert (I' : inv ks') by (change ks' with (fst (ks', Ok tt)); rewrite <- ES; apply inv_step, I).
  assert (W' : keys_wf ks') by (change ks' with (fst (ks', Ok tt)); rewrite <- ES; apply keys_wf_step; [exact I | apply made_wf, M | exact DO]).
  destruct (ring_entry ks n s k I HR) as (o & A1 & A2 & _ & A4). apply assoc_In in A2; [|exact Nat.eqb_eq].
  assert (HV : In (o, k) (ks_vkeys ks') /\ v_num (deref (ks_objs ks') o) = n).
  { destruct (versions_step ks (op_of c) o I A4) as [_ EN]. rewrite ES in EN. cbn [fst] in EN. split.
    - destruct (vkeys_step ks (op_of c) I) as [E|(k' & h & n' & E & _)]; rewrite ES in E; cbn [fst] in E; rewrite E; [exact A2 | apply in_or_app; left; exact A2].
    - rewrite EN. apply (inv_mvers ks I n o (assoc_In Z.eqb_eq A1)). }
  destruct HV as [HV <-].
  assert (G : forall vk i f, has_dir f l = true -> Forall (fun p => key_wf (snd p)) vk -> In (o, k) vk ->
    exists g', during f (write_keys l (ks_objs ks') vk None es i) g' /\ file g' l (key_file (v_num (deref (ks_objs ks') o))) = Some []).
  { clear. induction vk as [|[o' k'] vk IH]; intros i f HD W HI; [destruct HI|]. cbn [write_keys].
    pose proof (key_str_eq k' (Forall_inv W)) as EK. destruct HI as [E|HI].
    - injection E as -> ->. destruct (during_opened f (dumps (key_json k)) l (key_file (v_num (deref (ks_objs ks') o))) HD) as (g' & D & S). exists g'.
      split; [|apply (set_to_this _ _ _ _ _ S)]. apply during_bind_l. unfold WriteKey, pure. rewrite EK. cbn [pbind]. exact D.
    - destruct (WriteFile_ok f (dumps (key_json k')) l (key_file (v_num (deref (ks_objs ks') o'))) HD) as (f2 & E2 & S2).
      assert (HD2 : has_dir f2 l = true) by (rewrite (proj1 S2); exact HD).
      destruct (IH (S i) f2 HD2 (Forall_inv_tail W) HI) as (g' & D & E). exists g'.
      split; [|exact E]. apply (during_bind_r _ _ f f2 tt); [|exact D]. rewrite exec_WriteKey. unfold stored. rewrite EK. exact E2. }
  destruct (WriteFile_ok f (meta_text ks' None) l meta_file HD) as (f2 & E2 & S2).
  assert (HD2 : has_dir f2 l = true) by (rewrite (proj1 S2); exact HD).
  destruct (G (ks_vkeys ks') 0%nat f2 HD2 W' HV) as (g' & D & E). exists g'. split; [|exact E]. apply H.
  unfold WriteSet, WriteMetadata, pure. rewrite meta_str_eq. cbn [pbind]. apply (during_bind_r _ _ f f2 tt); [exact E2 | exact D].
Qed.
Print Assumptions C48_key_material_lost_refuted.

(** What holds: at every moment all other directories are untouched, and in [l] either one file
    is torn (it holds only the beginning of what it is to hold at the end), or a version is added
    and its key file is not there yet, or the set loads as the old or the new one. *)
Definition torn (g' g : disk) (l : str) : Prop :=
  exists n s t, file g' l n = Some s /\ file g l n = Some (s ++ t) /\ t <> [].

Lemma ring_cmd_keys t r c r' n s k : ring_cmd t r c r' -> r' n = Some (s, k) ->
  (exists s0, r n = Some (s0, k)) \/ (r n = None /\ exists s size ds, c = CmdAddKey s size ds).
Proof.
  intros H. destruct H as [s0 size ds d m k0 A1 A2 A3 A4 A5|m r' A1 A2|m r' A1 A2|m r' A1 A2]; intros HR.
  - unfold ring_add in HR. destruct (n =? m) eqn:E.
    + right. apply Z.eqb_eq in E as ->. split; [|eexists _, _, _; reflexivity]. destruct (r m) as [x|] eqn:ER; [|reflexivity]. apply (proj1 (proj2 A4)) in ER. lia.
    + left. destruct s0; [|exists s; exact HR | exists s; exact HR]. destruct (r n) as [[[] k1]|]; cbn in HR; try discriminate; apply Some_inj, pair_inj in HR as [_ <-]; eexists; reflexivity.
  - left. unfold ring_promote in A2. destruct (r m) as [[[] k1]|] eqn:ER; try discriminate; apply Some_inj in A2 as <-; cbn in HR; destruct (n =? m) eqn:E.
    + apply Z.eqb_eq in E as ->. apply Some_inj, pair_inj in HR as [_ <-]. eexists; exact ER.
    + destruct (r n) as [[[] k2]|]; cbn in HR; try discriminate; apply Some_inj, pair_inj in HR as [_ <-]; eexists; reflexivity.
    + apply Z.eqb_eq in E as ->. apply Some_inj, pair_inj in HR as [_ <-]. eexists; exact ER.
    + exists s. exact HR.
  - left. unfold ring_demote in A2. destruct (r m) as [[[] k1]|] eqn:ER; try discriminate; apply Some_inj in A2 as <-; cbn in HR; destruct (n =? m) eqn:E;
      try (exists s; exact HR); apply Z.eqb_eq in E as ->; apply Some_inj, pair_inj in HR as [_ <-]; eexists; exact ER.
  - left. unfold ring_revoke in A2. destruct (r m) as [[[] k1]|] eqn:ER; try discriminate; apply Some_inj in A2 as <-; cbn in HR. destruct (n =? m); [discriminate | exists s; exact HR].
Qed.

Lemma cmd_final l f ks c es g ks' : loadable f l ks -> step ks (op_of c) = (ks', Ok tt) -> kcmd_ok c ->
  exec (kcmd_prog l c es) f = (g, Ok tt) ->
  exists g1, exec (WriteSet ks' l None es) f = (g1, Ok tt) /\ forall l' n', (forall n, c = CmdRevoke n -> l' <> l \/ n' <> key_file n) -> file g l' n' = file g1 l' n'.
Proof.
  intros HL ES HC HX. pose proof (loadable_open _ _ _ HL) as HO. destruct c as [s size ds|n|n|n]; cbn [kcmd_prog op_of step] in *.
  - rewrite (exec_add l None s size ds es f ks HO), ES in HX. exists g. split; [exact HX | reflexivity].
  - unfold PromoteCmd in HX. rewrite (exec_change _ _ _ _ _ _ HL), ES in HX. destruct (n <? 0); [discriminate|]. exists g. split; [exact HX | reflexivity].
  - unfold DemoteCmd in HX. rewrite (exec_change _ _ _ _ _ _ HL), ES in HX. destruct (n <? 0); [discriminate|]. exists g. split; [exact HX | reflexivity].
  - unfold RevokeCmd in HX. rewrite exec_bind, (exec_change _ _ _ _ _ _ HL), ES in HX. destruct (n <? 0); [discriminate|].
    destruct (exec (WriteSet ks' l None es) f) as [g1 [[]|e]] eqn:EW; [|discriminate]. exists g1. split; [reflexivity|].
    rewrite exec_bind in HX. destruct (exec (CreateWriter l) g1) as [g2 [w|e]] eqn:EC; [|discriminate].
    pose proof (exec_reads _ (reads_writer l) g1) as E. rewrite EC in E. cbn [fst] in E. subst g2. unfold RemoveKey in HX. cbn [exec] in HX.
    destruct (file g1 l (key_file n)); [|discriminate]. apply pair_inj in HX as [<- _]. intros l' n' D. rewrite file_del.
    destruct (D n eq_refl) as [D'|D']; [rewrite (str_eqb_neq l l') by congruence; reflexivity|]. rewrite (str_eqb_neq (key_file n) n') by congruence. rewrite andb_false_r. reflexivity.
Qed.

Lemma set_writes_done ks l es f g : inv ks -> keys_wf ks -> has_dir f l = true -> exec (WriteSet ks l None es) f = (g, Ok tt) ->
  forall n s, In (n, s) (set_writes ks) -> file g l n = Some s.
Proof.
  intros I W HD H n s HI. destruct (WriteSet_spec _ _ _ _ _ _ _ I H) as (_ & S2 & _ & _ & _ & S6). destruct HI as [E|HI].
  - injection E as <- <-. apply (S2 HD).
  - apply in_map_iff in HI as (p & E & HI). injection E as <- <-. destruct (S6 eq_refl p HI) as (e & s & ES & EF).
    unfold stored in ES. rewrite (key_str_eq (snd p) (proj1 (Forall_forall _ _) W p HI)) in ES. apply Ok_inj in ES as <-. exact EF.
Qed.

(** With the new metadata in place and each key file holding the old or the new text. *)
Lemma load_mixed l ks' g : made ks' -> text_ok (ks_name ks') -> file g l meta_file = Some (meta_text ks' None) ->
  (forall n s k, ring_of ks' n = Some (s, k) -> exists x, file g l (key_file n) = Some x /\ ReadKey (ks_type ks') x = Ok k) ->
  exists ks2, loadable g l ks2 /\ forall n, ring_of ks2 n = ring_of ks' n.
Proof.
  intros M HN HM HK. pose proof (made_inv _ M) as I.
  destruct (open_from_disk g l None (ks_meta (written ks' None)) (fun n => option_map snd (ring_of ks' n)) GenericKeyczar) as (ks2 & O1 & _ & O3).
  - apply ks_meta_wf. destruct I; split; assumption.
  - exact HN.
  - apply (one_primary_meta (written ks' None)). destruct I; split; assumption.
  - apply generic_ok.
  - discriminate.
  - exact HM.
  - intros n v HI. assert (exists o, In (n, o) (ks_mvers ks')) as (o & Ho).
    { unfold ks_meta in HI. cbn [m_versions] in HI. apply in_map_iff in HI as ([n1 o1] & E & HI). apply pair_inj in E as [<- _]. exists o1. exact HI. }
    destruct (ring_known ks' n o I (assoc_NoDup Z.eqb_eq (inv_mkeys ks' I) Ho)) as (k & HKo & HR). destruct (HK n _ k HR) as (x & F & RK).
    destruct (inv_hash1 ks' I o k (assoc_In Nat.eqb_eq HKo)) as (h & k' & HH & _).
    exists x, k, h. rewrite HR. split; [reflexivity|]. split; [cbn [disk_reader file_reader rd_key]; rewrite F; reflexivity|]. split; [exact RK | exact HH].
  - exists ks2. split; [unfold loadable; rewrite exec_open, O1; reflexivity|]. intros n. rewrite O3. unfold ks_meta. cbn [m_versions].
    change (ks_mvers (written ks' None)) with (ks_mvers ks'). change (ks_objs (written ks' None)) with (ks_objs ks').
    destruct (assoc Z.eqb (ks_mvers ks') n) as [o|] eqn:EA.
    + destruct (ring_known ks' n o I EA) as (k & HKo & HR).
      assert (E : assoc Z.eqb (map (fun p => (fst p, deref (ks_objs ks') (snd p))) (ks_mvers ks')) n = Some (deref (ks_objs ks') o)).
      { clear - EA. induction (ks_mvers ks') as [|[a b] mv IH]; [discriminate|]. cbn [map fst snd assoc] in *. destruct (a =? n); [apply Some_inj in EA as ->; reflexivity | apply IH, EA]. }
      rewrite E, HR. reflexivity.
    + assert (E : assoc Z.eqb (map (fun p => (fst p, deref (ks_objs ks') (snd p))) (ks_mvers ks')) n = None).
      { clear - EA. induction (ks_mvers ks') as [|[a b] mv IH]; [reflexivity|]. cbn [map fst snd assoc] in *. destruct (a =? n); [discriminate | apply IH, EA]. }
      rewrite E. unfold ring_of. rewrite EA. reflexivity.
Qed.

Theorem C48_every_moment_partial : forall l f ks c es g g', loadable f l ks -> text_ok (ks_name ks) -> kcmd_ok c ->
  exec (kcmd_prog l c es) f = (g, Ok tt) -> during f (kcmd_prog l c es) g' ->
  (forall l' n', l' <> l -> file g' l' n' = file f l' n') /\
  (torn g' g l \/
   (exists n s size ds, c = CmdAddKey s size ds /\ ring_of ks n = None /\ file g l (key_file n) <> None /\
      file g' l meta_file = file g l meta_file /\ file g' l (key_file n) = file f l (key_file n)) \/
   exists ks', loadable g' l ks' /\
     ((forall n, ring_of ks' n = ring_of ks n) \/ exists r', ring_cmd (ks_type ks) (ring_of ks) c r' /\ forall n, ring_of ks' n = r' n)).
Proof.
  intros l f ks c es g g' HL HN HC HX HDu. pose proof (loadable_open _ _ _ HL) as HO. pose proof (made_open _ _ _ HO) as M. pose proof (made_inv _ M) as I.
  pose proof (opened_dir f l None ks _ HO) as HD.
  destruct (cmd_shape l f ks c es HL HN HC) as [(e' & C & _)|(ks' & r' & ES & RC & RE & _ & H)]; [congruence|].
  assert (DO : draws_ok (op_of c)) by (destruct c; exact HC).
  assert (M' : made ks') by (change ks' with (fst (ks', Ok tt)); rewrite <- ES, step_run; apply made_run; [exact M | repeat constructor; exact DO]).
  destruct (name_step ks (op_of c) I) as (N1 & N2 & N3 & _). rewrite ES in N1, N2, N3. cbn [fst] in N1, N2, N3.
  assert (HN' : text_ok (ks_name ks')) by (rewrite N1; exact HN). pose proof (made_inv _ M') as I'. pose proof (made_wf _ M') as W'.
  destruct (cmd_final l f ks c es g ks' HL ES HC HX) as (g1 & HW & HG).
  destruct (WriteSet_spec _ _ _ _ _ _ _ I' HW) as (_ & _ & S3 & S4 & _).
  pose proof (set_writes_done ks' l es f g1 I' W' HD HW) as SD.
  assert (KEYS : forall n s k, ring_of ks' n = Some (s, k) -> In (key_file n, key_text k) (set_writes ks') /\ ReadKey (ks_type ks') (key_text k) = Ok k /\
     (forall m, c = CmdRevoke m -> m <> n)).
  { intros n s k HR. destruct (ring_entry ks' n s k I' HR) as (o & A1 & A2 & _). apply assoc_In in A2; [|exact Nat.eqb_eq]. split; [|split].
    - right. apply in_map_iff. exists (o, k). split; [|exact A2]. unfold num_of. cbn [fst snd]. rewrite (proj2 (inv_mvers ks' I' n o (assoc_In Z.eqb_eq A1))). reflexivity.
    - rewrite <- (inv_type ks' I' o k A2). apply key_rt. apply (proj1 (Forall_forall _ _) W' (o, k) A2).
    - intros m -> ->. rewrite RE in HR. inversion RC as [| | |? ? _ A]; subst. unfold ring_revoke in A. destruct (ring_of ks n) as [[[] k1]|]; try discriminate.
      apply Some_inj in A as <-. cbn in HR. rewrite Z.eqb_refl in HR. discriminate. }
  destruct (H g' HDu) as [->|[HDu'|(n & g2 & -> & HW2 & ->)]].
  - split; [reflexivity|]. right. right. exists ks. split; [exact HL | left; reflexivity].
  - destruct (during_WriteSet ks' l es f g' I' W' HD HDu') as (_ & ws1 & ws2 & EW & A & B).
    split; [intros l' n' D; destruct B as [B|(n0 & s0 & ws3 & d1 & d2 & _ & _ & _ & _ & B)]; apply B; left; exact D|].
    destruct ws1 as [|[n1 s1] ws1].
    { cbn [app] in EW. subst ws2. destruct B as [B|(n0 & s0 & ws3 & d1 & d2 & E0 & -> & NE & F0 & B)].
      - right. right. exists ks. split; [|left; reflexivity]. unfold loadable. rewrite exec_open. rewrite (open_same_files GenericKeyczar l None f g') by (intros n; apply B; right; intros []).
        cbn [disk_reader]. rewrite HO. reflexivity.
      - left. injection E0 as <- E0 _. exists meta_file, d1, d2. split; [exact F0|]. split; [|exact NE]. rewrite <- E0.
        rewrite HG by (intros n _; right; intros E; symmetry in E; exact (key_file_meta _ E)). apply SD. left. reflexivity. }
    cbn [app set_writes] in EW. injection EW as <- <- EW. assert (FM : file g' l meta_file = Some (meta_text ks' None)) by (apply A; left; reflexivity).
    assert (FMg : file g l meta_file = Some (meta_text ks' None)).
    { rewrite HG by (intros n _; right; intros E; symmetry in E; exact (key_file_meta _ E)). apply SD. left. reflexivity. }
    (* a torn file that matters *)
    assert (B' : (forall n, (forall m, c = CmdRevoke m -> m <> n) -> ~ In (key_file n) (map fst ws1) -> file g' l (key_file n) = file f l (key_file n)) \/ torn g' g l).
    { destruct B as [B|(n0 & s0 & ws3 & d1 & d2 & -> & -> & NE & F0 & B)].
      - left. intros n _ NI. apply B. right. cbn [map fst]. intros [C|C]; [exact (key_file_meta _ (eq_sym C)) | exact (NI C)].
      - assert (IN : In (n0, d1 ++ d2) (set_writes ks')) by (unfold set_writes; rewrite EW; right; apply in_or_app; right; left; reflexivity).
        assert (DEC : (exists m, c = CmdRevoke m /\ n0 = key_file m) \/ (forall m, c = CmdRevoke m -> l <> l \/ n0 <> key_file m)).
        { destruct c as [| | |m]; try (right; intros m C; discriminate C). destruct (str_eqb n0 (key_file m)) eqn:E.
          - left. exists m. apply str_eqb_eq in E. split; [reflexivity | exact E].
          - right. intros m' C. injection C as <-. right. intros ->. rewrite str_eqb_refl in E. discriminate. }
        destruct DEC as [(m & -> & ->)|DEC].
        + left. intros n Hm NI. apply B. right. cbn [map fst]. intros [C|[C|C]].
          * apply key_file_inj in C. apply (Hm m eq_refl C).
          * exact (key_file_meta _ (eq_sym C)).
          * exact (NI C).
        + right. exists n0, d1, d2. split; [exact F0|]. split; [|exact NE]. rewrite HG by exact DEC. apply SD, IN. }
    destruct B' as [B'|T]; [|left; exact T].
    (* is a key missing? *)
    assert (DEC : (exists s size ds n s' k, c = CmdAddKey s size ds /\ ring_of ks n = None /\ ring_of ks' n = Some (s', k) /\ ~ In (key_file n) (map fst ws1)) \/
      forall n s k, ring_of ks' n = Some (s, k) -> exists x, file g' l (key_file n) = Some x /\ ReadKey (ks_type ks') x = Ok k).
    { assert (OLD : forall n s k s0, ring_of ks' n = Some (s, k) -> ring_of ks n = Some (s0, k) -> exists x, file g' l (key_file n) = Some x /\ ReadKey (ks_type ks') x = Ok k).
      { intros n s k s0 HR' HR. destruct (KEYS n s k HR') as (K1 & K2 & K3). destruct (in_dec (list_eq_dec Byte.byte_eq_dec) (key_file n) (map fst ws1)) as [HI|HI].
        - apply in_map_iff in HI as ([a b] & E & HI). cbn [fst] in E. subst a. assert (EB : b = key_text k).
          { pose proof (set_writes_nodup ks' I') as ND. assert (HI' : In (key_file n, b) (set_writes ks')) by (unfold set_writes; rewrite EW; right; apply in_or_app; left; exact HI).
            apply (NoDup_assoc_unique _ _ _ _ ND HI' K1). }
          subst b. exists (key_text k). split; [apply A; right; exact HI | exact K2].
        - destruct (opened_files _ l f ks n s0 k HO HR) as (x & F & RK & _). exists x. rewrite N3. split; [rewrite (B' n K3 HI); exact F | exact RK]. }
      destruct c as [s size ds|m|m|m].
      2-4: right; intros n0 s0 k0 HR; pose proof HR as HR2; rewrite RE in HR2; destruct (ring_cmd_keys _ _ _ _ _ _ _ RC HR2) as [(s1 & E)|(_ & (? & ? & ? & C))];
           [apply (OLD n0 s0 k0 s1 HR E) | discriminate C].
      inversion RC as [? ? ? d n k A1 A2 A3 A4 A5| | |]; subst.
      assert (RN : ring_of ks' n = Some (s, k)) by (rewrite RE; unfold ring_add; rewrite Z.eqb_refl; reflexivity).
      assert (RO : ring_of ks n = None).
      { destruct (ring_of ks n) as [x|] eqn:E; [|reflexivity]. apply (proj1 (proj2 A4)) in E. lia. }
      destruct (KEYS n s k RN) as (K1 & K2 & K3). destruct (in_dec (list_eq_dec Byte.byte_eq_dec) (key_file n) (map fst ws1)) as [HI|HI].
      - right. intros n0 s0 k0 HR. pose proof HR as HR2. rewrite RE in HR2. destruct (ring_cmd_keys _ _ _ _ _ _ _ RC HR2) as [(s1 & E)|(RN0 & _)]; [apply (OLD n0 s0 k0 s1 HR E)|].
        unfold ring_add in HR2. destruct (n0 =? n) eqn:E.
        + apply Z.eqb_eq in E as ->. apply Some_inj, pair_inj in HR2 as [_ <-].
          apply in_map_iff in HI as ([a b] & E & HI). cbn [fst] in E. subst a. assert (EB : b = key_text k).
          { pose proof (set_writes_nodup ks' I') as ND. assert (HI' : In (key_file n, b) (set_writes ks')) by (unfold set_writes; rewrite EW; right; apply in_or_app; left; exact HI).
            apply (NoDup_assoc_unique _ _ _ _ ND HI' K1). }
          subst b. exists (key_text k). split; [apply A; right; exact HI | exact K2].
        + exfalso. destruct s; rewrite RN0 in HR2; discriminate.
      - left. exists s, size, ds, n, s, k. repeat split; assumption. }
    right. destruct DEC as [(s & size & ds & n & s' & k & -> & R1 & R2 & NI)|DEC].
    + left. exists n, s, size, ds. split; [reflexivity|]. split; [exact R1|]. destruct (KEYS n s' k R2) as (K1 & _ & K3).
      split; [rewrite HG, (SD _ _ K1) by (intros m C; discriminate C); discriminate|]. split; [congruence | apply (B' n K3 NI)].
    + right. destruct (load_mixed l ks' g' M' HN' FM DEC) as (ks2 & L2 & R2). exists ks2. split; [exact L2|]. right. exists r'. split; [exact RC|]. intros n. rewrite R2. apply RE.
  - rewrite HW in HW2. apply pair_inj in HW2 as [<- _].
    split; [intros l' n' D; rewrite file_del, (str_eqb_neq l l') by congruence; apply S4; left; exact D|]. right. right.
    assert (FM : file (del_file g1 l (key_file n)) l meta_file = Some (meta_text ks' None)) by (rewrite file_del, str_eqb_refl, key_meta_eqb; apply SD; left; reflexivity).
    destruct (load_mixed l ks' (del_file g1 l (key_file n)) M' HN' FM) as (ks2 & L2 & R2).
    + intros m s k HR. destruct (KEYS m s k HR) as (K1 & K2 & K3). exists (key_text k). split; [|exact K2].
      rewrite file_del, str_eqb_refl, key_file_eqb. cbn [andb]. destruct (n =? m) eqn:E; [apply Z.eqb_eq in E; contradiction (K3 n eq_refl E)|]. apply SD, K1.
    + exists ks2. split; [exact L2|]. right. exists r'. split; [exact RC|]. intros m. rewrite R2. apply RE.
Qed.
Print Assumptions C48_every_moment_partial.

Lemma hmac_loadable : loadable test_disk (bs "/hmac") hmac_set.
Proof. unfold loadable. rewrite exec_open. vm_compute. reflexivity. Qed.
Example C48_case : loadable test_disk (bs "/hmac") hmac_set /\ text_ok (ks_name hmac_set) /\ kcmd_ok (CmdPromote 1) /\
  (exists g, exec (kcmd_prog (bs "/hmac") (CmdPromote 1) one_env) test_disk = (g, Ok tt)) /\ (exists k, ring_of hmac_set 2 = Some (PRIMARY, k)) /\
  exists g e, exec (kcmd_prog (bs "/hmac") (CmdPromote 2) one_env) test_disk = (g, Raise e).
Proof.
  split; [apply hmac_loadable|]. split; [apply (tx_ok "Test")|]. split; [exact I|].
  split; [eexists; vm_compute; reflexivity|]. split; [eexists; vm_compute; reflexivity|]. eexists _, _. vm_compute. reflexivity.
Qed.
