(** * Props_While: property C78 (opening a key set while commands change it). *)
From Coq Require Import Strings.String.
From Coq Require Import List ZArith NArith Bool Lia ZifyBool ZifyNat ZifyN.
From Coq.Init Require Import Byte.
From Verif Require Import PyBase PyFacts Base64 Util Json JsonFacts JsonSpec JsonSpecFacts KeyInfo Keys KeysFacts KeyData Keyczar KeyRing
  KeyczarFacts Props_Keyset Props_Keys Disk Keyczart DiskFacts CrashFacts Props_Disk Props_Tool Props_Cmd Props_Open.
Import ListNotations.
Local Open Scope Z_scope.
Ltac Zify.zify_post_hook ::= idtac.

(** ** Specification *)

(** [meanwhile f p qs g r]: while the programs [qs] run one after the other, starting on the disk [f]
    and leaving [g], another process runs [p], with the outcome [r].  The system calls interleave in any
    way, and a read may see any part of a write that is under way. *)
Inductive meanwhile {A} : disk -> prog A -> list (prog unit) -> disk -> res A -> Prop :=
| MwDone f r : meanwhile f (Done r) [] f r
| MwReads f p f' p' qs g r : dstep f p = (f', p') -> meanwhile f' p' qs g r -> meanwhile f p qs g r
| MwReadsPart f p f' p' l n d1 d2 k qs g r : dstep (put f l n d1) p = (f', p') ->
    meanwhile f p' (Write l n (d1 ++ d2) k :: qs) g r -> meanwhile f p (Write l n (d1 ++ d2) k :: qs) g r
| MwRuns f p q qs f' q' g r : dstep f q = (f', q') -> meanwhile f' p (q' :: qs) g r -> meanwhile f p (q :: qs) g r
| MwNext f p x qs g r : meanwhile f p qs g r -> meanwhile f p (Done x :: qs) g r.

(** The disk after the first [i] of some programs. *)
Fixpoint disk_after (f : disk) (qs : list (prog unit)) (i : nat) : disk :=
  match i, qs with
  | S i, q :: qs => disk_after (fst (exec q f)) qs i
  | _, _ => f
  end.

(** There are no key files besides those of the versions. *)
Definition tidy (f : disk) (l : str) (ks : keyset) : Prop := forall n, ring_of ks n = None -> file f l (key_file n) = None.

(** ** A text that is cut off is not a JSON object *)

Lemma object_complete p m f r : jvalue p (JObj m) -> (length p <= f)%nat -> parse_value f (p ++ r) = Ok (JObj m, r).
Proof.
  intros H L. inversion H as [| | | | | | | | |a HA|s m' HM]; subst.
  - destruct f; [cbn in L; lia|]. cbn [app parse_value]. change (beqb x7b """"%byte) with false. change (beqb x7b "{"%byte) with true. cbn iota.
    rewrite <- app_assoc, skip_ws_app by exact HA. reflexivity.
  - destruct f; [cbn in L; lia|]. cbn [length] in L. rewrite app_length in L. cbn [length] in L. cbn [app parse_value]. change (beqb x7b """"%byte) with false. change (beqb x7b "{"%byte) with true. cbn iota.
    rewrite <- app_assoc. cbn [app]. destruct (proj2 (proj2 parse_complete) s m HM f r ltac:(lia)) as [-> ->]. reflexivity.
Qed.

Lemma cut_object s t m v : loads s = Ok (JObj m) -> loads (s ++ t) = Ok v -> ws t.
Proof.
  intros H1 H2. apply loads_grammar in H1 as (a & x & b & -> & HA & HV & HB). unfold loads in H2.
  rewrite <- !app_assoc, skip_ws_app, (value_skip x (JObj m)) in H2 by assumption. rewrite (object_complete x m) in H2 by (try exact HV; rewrite !app_length; lia).
  cbn [bind] in H2. rewrite skip_ws_app in H2 by exact HB. destruct (skip_ws_sound t) as (w & EW & HW). destruct (skip_ws t); [|discriminate]. rewrite EW, app_nil_r. exact HW.
Qed.

Lemma torn_object s t q v m : t <> [] -> s ++ t = q ++ [x7d] -> loads (s ++ t) = Ok v -> loads s <> Ok (JObj m).
Proof.
  intros NE E H2 H1. pose proof (cut_object _ _ _ _ H1 H2) as W. destruct (exists_last NE) as (t' & c & ->). rewrite app_assoc in E. apply app_inj_tail in E as [_ ->].
  unfold ws in W. rewrite Forall_forall in W. specialize (W x7d ltac:(apply in_or_app; right; left; reflexivity)). cbn in W. destruct W as [W|[W|[W|[W|[]]]]]; discriminate W.
Qed.

Lemma get_object v k w : get v k = Ok w -> exists m, v = JObj m.
Proof. destruct v; try discriminate. intros _. eexists. reflexivity. Qed.
Lemma meta_object s m : meta_Read s = Ok m -> exists o, loads s = Ok (JObj o).
Proof.
  unfold meta_Read. intros H. apply bind_Ok in H as (j & HJ & H). apply bind_Ok in H as (n & HN & _). unfold get_str in HN. apply bind_Ok in HN as (w & HW & _).
  destruct (get_object _ _ _ HW) as (o & ->). exists o. exact HJ.
Qed.
Lemma key_error_Ok {A} (r : res A) a : key_error_to_keyczar r = Ok a -> r = Ok a.
Proof. destruct r as [x|[]]; cbn; intros H; try discriminate H; exact H. Qed.
Lemma key_object t s k : ReadKey t s = Ok k -> exists o, loads s = Ok (JObj o).
Proof.
  intros H. apply key_error_Ok in H. destruct t; apply bind_Ok in H as (k' & H & _);
    (apply bind_Ok in H as (j & HJ & H); apply bind_Ok in H as (x & HX & _); exists (match j with JObj o => o | _ => [] end);
     destruct j; try exact HJ; exfalso; discriminate HX).
Qed.

(** ** What the reader sees *)

Inductive seen {A} (P : disk -> Prop) : prog A -> res A -> Prop :=
| SeenDone r : seen P (Done r) r
| SeenStep p f f' p' r : P f -> dstep f p = (f', p') -> seen P p' r -> seen P p r.

Lemma seen_Done {A} P (x r : res A) : seen P (Done x) r -> r = x.
Proof.
  intros H. remember (Done x) as p eqn:E. induction H as [r|p f f' p' r HP HS H IH]; [congruence|]. subst p. cbn [dstep] in HS. apply pair_inj in HS as [_ <-]. apply IH. reflexivity.
Qed.
Lemma seen_Read {A} P l n (k : option str -> prog A) r : seen P (Read l n k) r -> exists f, P f /\ seen P (k (file f l n)) r.
Proof. intros H. inversion H as [|p f f' p' r' HP HS HR]; subst. cbn [dstep] in HS. apply pair_inj in HS as [_ <-]. exists f. split; assumption. Qed.
Lemma seen_impl {A} (P Q : disk -> Prop) (p : prog A) r : (forall f, P f -> Q f) -> seen P p r -> seen Q p r.
Proof. intros HI H. induction H as [r|p f f' p' r HP HS H IH]; [constructor | apply (SeenStep Q p f f' p' r (HI f HP) HS IH)]. Qed.

Lemma seen_bind {A B} P (p : prog A) (q : A -> prog B) : reads p -> forall r, seen P (pbind p q) r ->
  (exists a, seen P p (Ok a) /\ seen P (q a) r) \/ exists e, seen P p (Raise e) /\ r = Raise e.
Proof.
  induction p as [[a|e]|l n k IH|l k IH|l n k IH|l n k IH|l n d k IH|l n k IH|l k IH]; cbn [reads pbind]; intros R r H; try contradiction.
  - left. exists a. split; [constructor | exact H].
  - right. exists e. apply seen_Done in H. split; [constructor | exact H].
  - apply seen_Read in H as (f & Pf & H). destruct (IH _ (R _) _ H) as [(a & H1 & H2)|(e & H1 & H2)]; [left; exists a | right; exists e]; (split; [|exact H2]);
      (eapply (SeenStep P _ f f); [exact Pf | reflexivity | exact H1]).
  - inversion H as [|p f f' p' r' Pf HS HR]; subst. cbn [dstep] in HS. apply pair_inj in HS as [<- <-].
    destruct (IH _ (R _) _ HR) as [(a & H1 & H2)|(e & H1 & H2)]; [left; exists a | right; exists e]; (split; [|exact H2]); (eapply (SeenStep P _ f f); [exact Pf | reflexivity | exact H1]).
  - inversion H as [|p f f' p' r' Pf HS HR]; subst. cbn [dstep] in HS. apply pair_inj in HS as [<- <-].
    destruct (IH _ (R _) _ HR) as [(a & H1 & H2)|(e & H1 & H2)]; [left; exists a | right; exists e]; (split; [|exact H2]); (eapply (SeenStep P _ f f); [exact Pf | reflexivity | exact H1]).
  - inversion H as [|p f f' p' r' Pf HS HR]; subst. cbn [dstep] in HS. apply pair_inj in HS as [<- <-].
    destruct (IH _ (R _) _ HR) as [(a & H1 & H2)|(e & H1 & H2)]; [left; exists a | right; exists e]; (split; [|exact H2]); (eapply (SeenStep P _ f f); [exact Pf | reflexivity | exact H1]).
Qed.

(** The disks met while some programs run one after the other. *)
Fixpoint moments (f : disk) (qs : list (prog unit)) (g : disk) : Prop :=
  match qs with
  | [] => g = f
  | q :: qs => during f q g \/ moments (fst (exec q f)) qs g
  end.

Lemma moments_now f qs : moments f qs f.
Proof. destruct qs as [|q qs]; [reflexivity | left; constructor]. Qed.

Lemma exec_dstep {A} f (p : prog A) f' p' : dstep f p = (f', p') -> exec p f = exec p' f'.
Proof.
  destruct p; cbn [dstep exec]; intros H; try (apply pair_inj in H as [<- <-]; reflexivity).
  - destruct (has_dir f l); apply pair_inj in H as [<- <-]; reflexivity.
  - destruct (file f l n); apply pair_inj in H as [<- <-]; reflexivity.
Qed.

Lemma reads_dstep {A} f (p : prog A) f' p' : reads p -> dstep f p = (f', p') -> f' = f /\ reads p'.
Proof.
  destruct p; cbn [reads dstep]; intros R H; try contradiction; apply pair_inj in H as [<- <-]; split; try reflexivity; try exact R; apply R.
Qed.

Lemma meanwhile_seen {A} f (p : prog A) qs g r : meanwhile f p qs g r -> reads p -> seen (moments f qs) p r /\ g = disk_after f qs (length qs).
Proof.
  intros H. induction H as [f r|f p f' p' qs g r HS H IH|f p f' p' l n d1 d2 k qs g r HS H IH|f p q qs f' q' g r HS H IH|f p x qs g r H IH]; intros R.
  - split; [constructor | reflexivity].
  - destruct (reads_dstep _ _ _ _ R HS) as [-> R']. destruct (IH R') as [S E]. split; [|exact E]. apply (SeenStep _ p f f p' r (moments_now _ _) HS S).
  - destruct (reads_dstep _ _ _ _ R HS) as [-> R']. destruct (IH R') as [S E]. split; [|exact E].
    refine (SeenStep _ p (put f l n d1) _ p' r _ HS S). left. apply (DurPart f l n _ d1 d2 k eq_refl).
  - destruct (IH R) as [S E]. split.
    + revert S. apply seen_impl. intros h [HD|HM]; [left; apply (DurStep _ _ _ _ _ HS HD) | right; rewrite (exec_dstep _ _ _ _ HS); exact HM].
    + rewrite E. cbn [length disk_after]. rewrite (exec_dstep _ _ _ _ HS). reflexivity.
  - destruct (IH R) as [S E]. split; [|rewrite E; reflexivity]. revert S. apply seen_impl. intros h HM. right. exact HM.
Qed.

Lemma load_ext t rd rd' : forall vs o p vk hk, (forall v, In v vs -> rd_key rd (v_num v) = rd_key rd' (v_num v)) ->
  load_keys rd t o vs p vk hk = load_keys rd' t o vs p vk hk.
Proof.
  induction vs as [|v vs IH]; intros o p vk hk H; [reflexivity|]. cbn [load_keys]. rewrite (H v (or_introl eq_refl)).
  destruct (if status_eqb (v_status v) PRIMARY then _ else _) as [p'|e]; cbn [bind]; [|reflexivity].
  destruct (rd_key rd' (v_num v)) as [s|e]; cbn [bind]; [|reflexivity]. destruct (ReadKey t s) as [k|e]; cbn [bind]; [|reflexivity].
  destruct (key_hash_id k) as [h|e]; cbn [bind]; [|reflexivity]. apply IH. intros w Hw. apply H. right. exact Hw.
Qed.

Lemma seen_load (P : disk -> Prop) l t f0 : P f0 -> forall vs o p vk hk r, NoDup (map v_num vs) -> seen P (load_files l None t o vs p vk hk) r ->
  exists rk, (forall n, exists f, P f /\ rk n = answer (file f l (key_file n))) /\ forall ms e, load_keys (MkReader ms rk e) t o vs p vk hk = r.
Proof.
  intros P0. induction vs as [|v vs IH]; intros o p vk hk r ND H; cbn [load_files] in H.
  - apply seen_Done in H as ->. exists (fun n => answer (file f0 l (key_file n))). split; [intros n; exists f0; split; [exact P0 | reflexivity] | reflexivity].
  - cbn [map] in ND. apply NoDup_cons_iff in ND as [NI ND]. cbn [load_keys].
    assert (G : forall p', seen P (pbind (GetKey l None (v_num v)) (fun s => pbind (pure (ReadKey t s)) (fun k => pbind (pure (key_hash_id k))
        (fun h => load_files l None t (S o) vs p' (vk ++ [(o, k)]) (dict_set str_eqb hk h k))))) r ->
      exists rk, (forall n, exists f, P f /\ rk n = answer (file f l (key_file n))) /\ forall ms e,
        (let* s := rk (v_num v) in let* k := ReadKey t s in let* h := key_hash_id k in load_keys (MkReader ms rk e) t (S o) vs p' (vk ++ [(o, k)]) (dict_set str_eqb hk h k)) = r).
    { intros p' HG. unfold GetKey, ReadFile in HG. cbn [pbind] in HG. apply seen_Read in HG as (f & Pf & HG).
      assert (DEF : forall x, x = r -> (forall rk0 : Z -> res str, rk0 (v_num v) = answer (file f l (key_file (v_num v))) -> forall ms e,
          (let* s := rk0 (v_num v) in let* k := ReadKey t s in let* h := key_hash_id k in load_keys (MkReader ms rk0 e) t (S o) vs p' (vk ++ [(o, k)]) (dict_set str_eqb hk h k)) = x) ->
        exists rk, (forall n, exists f, P f /\ rk n = answer (file f l (key_file n))) /\ forall ms e,
        (let* s := rk (v_num v) in let* k := ReadKey t s in let* h := key_hash_id k in load_keys (MkReader ms rk e) t (S o) vs p' (vk ++ [(o, k)]) (dict_set str_eqb hk h k)) = r).
      { intros x -> HX. exists (fun n => answer (file f l (key_file n))). split; [intros n; exists f; split; [exact Pf | reflexivity]|]. intros ms e. exact (HX (fun n => answer (file f l (key_file n))) eq_refl ms e). }
      destruct (file f l (key_file (v_num v))) as [s|] eqn:EF; cbn [pbind] in HG.
      2:{ apply seen_Done in HG. apply (DEF (Raise KeyczarError)); [congruence|]. intros rk0 -> ms e. reflexivity. }
      unfold pure in HG. cbn [pbind] in HG. destruct (ReadKey t s) as [k|e0] eqn:EK; cbn [pbind] in HG.
      2:{ apply seen_Done in HG. apply (DEF (Raise e0)); [congruence|]. intros rk0 -> ms e. cbn [answer bind]. rewrite EK. reflexivity. }
      destruct (key_hash_id k) as [h|e0] eqn:EH; cbn [pbind] in HG.
      2:{ apply seen_Done in HG. apply (DEF (Raise e0)); [congruence|]. intros rk0 -> ms e. cbn [answer bind]. rewrite EK. cbn [bind]. rewrite EH. reflexivity. }
      destruct (IH _ _ _ _ _ ND HG) as (rk & HR & HL). exists (fun n => if n =? v_num v then answer (file f l (key_file n)) else rk n). split.
      - intros n. destruct (n =? v_num v); [exists f; split; [exact Pf | reflexivity] | apply HR].
      - intros ms e. rewrite Z.eqb_refl, EF. cbn [answer bind]. rewrite EK. cbn [bind]. rewrite EH. cbn [bind]. rewrite <- (HL ms e). apply load_ext.
        intros w Hw. cbn [rd_key]. destruct (v_num w =? v_num v) eqn:E; [|reflexivity]. exfalso. apply NI. apply Z.eqb_eq in E. rewrite <- E. apply in_map, Hw. }
    destruct (status_eqb (v_status v) PRIMARY); [destruct p as [q|]|]; cbn [pbind bind] in *.
    + apply seen_Done in H as ->. exists (fun n => answer (file f0 l (key_file n))). split; [intros n; exists f0; split; [exact P0 | reflexivity] | reflexivity].
    + apply (G _ H).
    + apply (G _ H).
Qed.

Lemma seen_open (P : disk -> Prop) c l f0 r : P f0 -> seen P (open_files c l None) r -> exists rd, open_keyset c rd = r /\
  (exists f, P f /\ rd_meta rd = answer (file f l meta_file)) /\ forall n, exists f, P f /\ rd_key rd n = answer (file f l (key_file n)).
Proof.
  intros P0 H. unfold open_files, GetMetadata, ReadFile in H. cbn [pbind] in H. apply seen_Read in H as (f & Pf & H).
  assert (DEF : forall x, x = r -> (forall rk, open_keyset c (MkReader (answer (file f l meta_file)) rk false) = x) -> exists rd, open_keyset c rd = r /\
     (exists f, P f /\ rd_meta rd = answer (file f l meta_file)) /\ forall n, exists f, P f /\ rd_key rd n = answer (file f l (key_file n))).
  { intros x -> HX. exists (MkReader (answer (file f l meta_file)) (fun n => answer (file f0 l (key_file n))) false). split; [apply HX|].
    split; [exists f; split; [exact Pf | reflexivity] | intros n; exists f0; split; [exact P0 | reflexivity]]. }
  destruct (file f l meta_file) as [s|] eqn:EF; cbn [pbind] in H.
  2:{ apply seen_Done in H. apply (DEF (Raise KeyczarError)); [congruence | reflexivity]. }
  unfold pure in H. cbn [pbind] in H. destruct (meta_Read s) as [m|e] eqn:EM; cbn [pbind] in H.
  2:{ apply seen_Done in H. apply (DEF (Raise e)); [congruence|]. intros rk. unfold open_keyset. cbn [rd_meta answer bind]. rewrite EM. reflexivity. }
  destruct (negb (IsAcceptablePurpose c (m_purpose m))) eqn:EP.
  { apply seen_Done in H. apply (DEF (Raise KeyczarError)); [congruence|]. intros rk. unfold open_keyset. cbn [rd_meta answer bind]. rewrite EM. cbn [bind]. rewrite EP. reflexivity. }
  destruct (m_encrypted m && negb false) eqn:EE.
  { apply seen_Done in H. apply (DEF (Raise KeyczarError)); [congruence|]. intros rk. unfold open_keyset. cbn [rd_meta rd_encrypted answer bind]. rewrite EM. cbn [bind]. rewrite EP, EE. reflexivity. }
  assert (ND : NoDup (map v_num (meta_versions m))).
  { pose proof (meta_Read_wf s m EM) as [W1 W2]. unfold meta_versions. rewrite map_map. erewrite map_ext_in; [exact W1|]. intros [n v] HI. rewrite Forall_forall in W2. apply (W2 _ HI). }
  apply seen_bind in H; [|apply reads_load]. 
  assert (FIN : forall x, seen P (load_files l None (m_type m) 0 (meta_versions m) None [] []) x ->
     r = (let* (p, vk, hk) := x in Ok (MkKs (m_name m) (m_purpose m) (m_type m) (m_encrypted m) (meta_versions m) (combine (map fst (m_versions m)) (seq 0 (length (meta_versions m)))) vk hk p)) ->
     exists rd, open_keyset c rd = r /\ (exists f, P f /\ rd_meta rd = answer (file f l meta_file)) /\ forall n, exists f, P f /\ rd_key rd n = answer (file f l (key_file n))).
  { intros x HX ->. destruct (seen_load P l _ f0 P0 _ _ _ _ _ _ ND HX) as (rk & HR & HL). exists (MkReader (answer (file f l meta_file)) rk false).
    split; [|split; [exists f; split; [exact Pf | reflexivity] | exact HR]]. unfold open_keyset. cbn [rd_meta rd_encrypted]. rewrite EF. cbn [answer bind]. rewrite EM. cbn [bind]. rewrite EP, EE, HL. reflexivity. }
  destruct H as [([[p vk] hk] & H1 & H2)|(e & H1 & H2)].
  - apply (FIN _ H1). apply seen_Done in H2. exact H2.
  - apply (FIN _ H1). exact H2.
Qed.

(** ** What is on the disk while a command runs *)

Lemma in_ring ks o k : inv ks -> In (o, k) (ks_vkeys ks) -> In o (map snd (ks_mvers ks)) ->
  exists s, ring_of ks (v_num (deref (ks_objs ks) o)) = Some (s, k).
Proof.
  intros I HI Ho. apply in_map_iff in Ho as ([n o2] & E2 & HM). cbn [snd] in E2. subst o2.
  destruct (ring_known ks n o I (assoc_NoDup Z.eqb_eq (inv_mkeys ks I) HM)) as (k' & HK & HR).
  rewrite (proj2 (inv_mvers ks I n o HM)). rewrite (assoc_NoDup Nat.eqb_eq (inv_vnodup ks I) HI) in HK. apply Some_inj in HK as <-. eexists. exact HR.
Qed.

Lemma opened_mvers c rd ks o k : open_keyset c rd = Ok ks -> In (o, k) (ks_vkeys ks) -> In o (map snd (ks_mvers ks)).
Proof.
  intros H HI. apply open_ok in H as (s0 & m & ls & _ & ERd & _ & _ & F & _ & _ & _ & _ & EO & EM & EV & _).
  rewrite EM, map_snd_combine by (unfold meta_versions; rewrite !map_length, seq_length; reflexivity). rewrite EV in HI. apply in_combine_l in HI. exact HI.
Qed.

(** The keys a command writes belong to versions of the set before or after it. *)
Lemma written_keys c rd ks op ks' o k : open_keyset c rd = Ok ks -> step ks op = (ks', Ok tt) -> In (o, k) (ks_vkeys ks') ->
  (exists s, ring_of ks (v_num (deref (ks_objs ks') o)) = Some (s, k)) \/ (exists s, ring_of ks' (v_num (deref (ks_objs ks') o)) = Some (s, k)).
Proof.
  intros HO ES HI. pose proof (inv_open _ _ _ HO) as I. assert (I' : inv ks') by (change ks' with (fst (ks', Ok tt)); rewrite <- ES; apply inv_step, I).
  assert (SAME : ks_vkeys ks' = ks_vkeys ks -> ks_mvers ks' = ks_mvers ks -> exists s, ring_of ks' (v_num (deref (ks_objs ks') o)) = Some (s, k)).
  { intros EV EM. apply (in_ring ks' o k I' HI). rewrite EM. rewrite EV in HI. apply (opened_mvers c rd ks o k HO HI). }
  destruct op as [ds s size|n|n|n]; cbn [step] in ES.
  - right. apply (in_ring ks' o k I' HI). rewrite AddVersion_eq in ES. cbv zeta in ES. destruct (negb _); [discriminate|]. destruct (gen_unique _ _ _ ds) as [[k1 h]|e]; [|discriminate].
    apply pair_inj in ES as [<- _]. rewrite AddKey_eq in HI |- * by exact I. cbn [ks_vkeys ks_mvers] in *. rewrite map_app. apply in_or_app. apply in_app_or in HI as [HI|[HI|[]]].
    + left. apply (opened_mvers c rd ks o k HO HI).
    + right. apply pair_inj in HI as [<- _]. left. reflexivity.
  - right. unfold Promote in ES. destruct (GetVersion ks n) as [p|]; [|discriminate]. destruct (v_status _); [discriminate| |]; apply pair_inj in ES as [<- _]; apply SAME; destruct (ks_primary ks); reflexivity.
  - right. unfold Demote in ES. destruct (GetVersion ks n) as [p|]; [|discriminate]. destruct (v_status _); [| |discriminate]; apply pair_inj in ES as [<- _]; apply SAME; reflexivity.
  - left. unfold Revoke in ES. destruct (GetVersion ks n) as [p|]; [|discriminate]. destruct (v_status _); try discriminate. apply pair_inj in ES as [<- _]. cbn in *.
    eexists. apply (opened_vkeys c rd ks o k HO HI).
Qed.

Lemma dumps_brace o : exists q, dumps (JObj o) = q ++ [x7d].
Proof. cbn [dumps]. eexists. rewrite app_assoc. reflexivity. Qed.
Lemma key_text_brace k : exists q, key_text k = q ++ [x7d].
Proof. unfold key_text. destruct k; apply dumps_brace. Qed.
Lemma meta_text_brace ks enc : exists q, meta_text ks enc = q ++ [x7d].
Proof. apply dumps_brace. Qed.

Lemma loads_meta f l ks s : loadable f l ks -> file f l meta_file = Some s -> exists m, meta_Read s = Ok m.
Proof.
  intros HL HF. apply loadable_open in HL. apply open_ok in HL as (s0 & m & ls & EM & ER & _). cbn [file_reader rd_meta] in EM. rewrite HF in EM. apply Ok_inj in EM as <-.
  exists m. exact ER.
Qed.

Lemma ring_cmd_kept t r c r' n s k : ring_cmd t r c r' -> r n = Some (s, k) -> (forall m, c = CmdRevoke m -> m <> n) -> exists s', r' n = Some (s', k).
Proof.
  intros RC E NV. destruct RC as [s0 size ds d m k0 A1 A2 A3 A4 A5|m r' A1 A2|m r' A1 A2|m r' A1 A2].
  - unfold ring_add. destruct (n =? m) eqn:EN; [apply Z.eqb_eq in EN as ->; apply (proj1 (proj2 A4)) in E; lia|].
    destruct s0; rewrite E; try (eexists; reflexivity). destruct s; eexists; reflexivity.
  - unfold ring_promote in A2. destruct (r m) as [[[] k1]|] eqn:EM; try discriminate; apply Some_inj in A2 as <-; cbn; (destruct (n =? m) eqn:EN;
      [apply Z.eqb_eq in EN as ->; rewrite E in EM; apply Some_inj, pair_inj in EM as [_ <-]; eexists; reflexivity|]); rewrite E; destruct s; eexists; reflexivity.
  - unfold ring_demote in A2. destruct (r m) as [[[] k1]|] eqn:EM; try discriminate; apply Some_inj in A2 as <-; cbn; (destruct (n =? m) eqn:EN;
      [apply Z.eqb_eq in EN as ->; rewrite E in EM; apply Some_inj, pair_inj in EM as [_ <-]; eexists; reflexivity|]); rewrite E; eexists; reflexivity.
  - unfold ring_revoke in A2. destruct (r m) as [[[] k1]|]; try discriminate. apply Some_inj in A2 as <-. cbn. destruct (n =? m) eqn:EM; [|eexists; exact E].
    apply Z.eqb_eq in EM as ->. exfalso. apply (NV m eq_refl eq_refl).
Qed.

Definition command := (kcmd * (nat -> env))%type.
Definition command_prog (l : str) (c : command) : prog unit := kcmd_prog l (fst c) (snd c).

Lemma one_command l f ks c es : loadable f l ks -> text_ok (ks_name ks) -> kcmd_ok c -> tidy f l ks ->
  let f1 := fst (exec (kcmd_prog l c es) f) in
  exists ks1, loadable f1 l ks1 /\ tidy f1 l ks1 /\ ks_name ks1 = ks_name ks /\ ks_type ks1 = ks_type ks /\
    (forall n s k s' k', ring_of ks n = Some (s, k) -> ring_of ks1 n = Some (s', k') -> k = k') /\
    ((forall m, c <> CmdRevoke m) -> forall n s k, ring_of ks n = Some (s, k) -> exists s', ring_of ks1 n = Some (s', k)) /\
    forall g, during f (kcmd_prog l c es) g ->
      (forall s m, file g l meta_file = Some s -> meta_Read s = Ok m -> file f l meta_file = Some s \/ file f1 l meta_file = Some s) /\
      (forall n x k, file g l (key_file n) = Some x -> ReadKey (ks_type ks) x = Ok k -> (exists s, ring_of ks n = Some (s, k)) \/ (exists s, ring_of ks1 n = Some (s, k))).
Proof.
  intros HL HN HC HT f1. pose proof (loadable_open _ _ _ HL) as HO. pose proof (made_open _ _ _ HO) as M. pose proof (made_inv _ M) as I.
  pose proof (opened_dir f l None ks _ HO) as HD.
  assert (NOW : forall n x k, file f l (key_file n) = Some x -> ReadKey (ks_type ks) x = Ok k -> exists s, ring_of ks n = Some (s, k)).
  { intros n x k HF HR. destruct (ring_of ks n) as [[s k0]|] eqn:E; [|rewrite (HT n E) in HF; discriminate]. destruct (opened_files _ l f ks n s k0 HO E) as (x0 & F & RK & _).
    rewrite HF in F. apply Some_inj in F as <-. rewrite HR in RK. apply Ok_inj in RK as <-. eexists. reflexivity. }
  destruct (cmd_shape l f ks c es HL HN HC) as [(e' & C & HDu)|(ks' & r' & ES & RC & RE & _ & H)].
  { subst f1. rewrite C. cbn [fst]. exists ks. split; [exact HL|]. split; [exact HT|]. split; [reflexivity|]. split; [reflexivity|]. split; [congruence|]. split; [intros _ n s k R; exists s; exact R|].
    intros g HG. apply HDu in HG as ->. split; [intros s m HF _; left; exact HF | intros n x k HF HR; left; apply (NOW n x k HF HR)]. }
  assert (HX : exec (kcmd_prog l c es) f = (f1, Ok tt)).
  { destruct (exec (kcmd_prog l c es) f) as [g r] eqn:E. subst f1. cbn [fst]. destruct (C47_command l f ks c es g r HL HN HC E) as [(-> & _)|((e & ->) & _ & RF)]; [reflexivity|].
    exfalso. destruct RC as [s size ds d n k A1 A2 A3 A4 A5|n r' A1 A2|n r' A1 A2|n r' A1 A2]; cbn [refused] in RF.
    2-4: destruct RF as [RF|RF]; [lia | congruence].
    destruct RF as [RF|[RF|RF]]; [contradiction | unfold GenKey in A3; destruct (negb _); [discriminate|]; destruct (ks_type ks); discriminate|].
    destruct (RF d A2) as (k2 & m & s2 & k3 & G & R & Hh). rewrite A3 in G. apply Ok_inj in G as <-. apply (A5 m s2 k3 R Hh). }
  assert (DO : draws_ok (op_of c)) by (destruct c; exact HC).
  assert (M' : made ks') by (change ks' with (fst (ks', Ok tt)); rewrite <- ES, step_run; apply made_run; [exact M | repeat constructor; exact DO]).
  destruct (name_step ks (op_of c) I) as (N1 & N2 & N3 & _). rewrite ES in N1, N2, N3. cbn [fst] in N1, N2, N3.
  assert (HN' : text_ok (ks_name ks')) by (rewrite N1; exact HN). pose proof (made_inv _ M') as I'. pose proof (made_wf _ M') as W'.
  destruct (cmd_final l f ks c es f1 ks' HL ES HC HX) as (g1 & HW & HG).
  destruct (WriteSet_spec _ _ _ _ _ _ _ I' HW) as (_ & _ & S3 & S4 & _).
  pose proof (set_writes_done ks' l es f g1 I' W' HD HW) as SD.
  assert (NR : forall n s k, ring_of ks' n = Some (s, k) -> forall m, c = CmdRevoke m -> m <> n).
  { intros n s k HR m -> ->. rewrite RE in HR. inversion RC as [| | |? ? _ A]; subst. unfold ring_revoke in A. destruct (ring_of ks n) as [[[] k1]|]; try discriminate.
    apply Some_inj in A as <-. cbn in HR. rewrite Z.eqb_refl in HR. discriminate. }
  assert (KEYS : forall n s k, ring_of ks' n = Some (s, k) -> In (key_file n, key_text k) (set_writes ks') /\ ReadKey (ks_type ks') (key_text k) = Ok k).
  { intros n s k HR. destruct (ring_entry ks' n s k I' HR) as (o & A1 & A2 & _). apply assoc_In in A2; [|exact Nat.eqb_eq]. split.
    - right. apply in_map_iff. exists (o, k). split; [|exact A2]. unfold num_of. cbn [fst snd]. rewrite (proj2 (inv_mvers ks' I' n o (assoc_In Z.eqb_eq A1))). reflexivity.
    - rewrite <- (inv_type ks' I' o k A2). apply key_rt. apply (proj1 (Forall_forall _ _) W' (o, k) A2). }
  assert (FM : file f1 l meta_file = Some (meta_text ks' None)).
  { rewrite HG by (intros n _; right; intros E; symmetry in E; exact (key_file_meta _ E)). apply SD. left. reflexivity. }
  destruct (load_mixed l ks' f1 M' HN' FM) as (ks1 & L1 & R1).
  { intros n s k HR. destruct (KEYS n s k HR) as [K1 K2]. exists (key_text k). split; [|exact K2].
    rewrite HG by (intros m E; right; intros C; apply key_file_inj in C; symmetry in C; exact (NR n s k HR m E C)). apply SD, K1. }
  assert (NT : ks_name ks1 = ks_name ks /\ ks_type ks1 = ks_type ks).
  { destruct (C47_command l f ks c es f1 (Ok tt) HL HN HC HX) as [(_ & (ks2 & r2 & L2 & A & _ & B & _) & _)|((e & C) & _)]; [|discriminate].
    unfold loadable in L1, L2. rewrite L1 in L2. apply pair_inj in L2 as [_ L2]. apply Ok_inj in L2 as <-. split; assumption. }
  destruct NT as [NT1 NT2]. exists ks1. split; [exact L1|].
  (* the key files written *)
  assert (WK : forall n x, In (key_file n, x) (set_writes ks') -> exists k, x = key_text k /\ ReadKey (ks_type ks) x = Ok k /\
      ((exists s, ring_of ks n = Some (s, k)) \/ (exists s, ring_of ks1 n = Some (s, k)))).
  { intros n x [E|HI]; [exfalso; injection E as E _; exact (key_file_meta _ (eq_sym E))|]. apply in_map_iff in HI as ([o k] & E & HI). injection E as E <-. apply key_file_inj in E. unfold num_of in E. cbn [fst snd] in *.
    exists k. split; [reflexivity|]. split; [rewrite <- N3, <- (inv_type ks' I' o k HI); apply key_rt; apply (proj1 (Forall_forall _ _) W' (o, k) HI)|].
    destruct (written_keys _ _ ks _ ks' o k HO ES HI) as [(s & R)|(s & R)]; rewrite E in R; [left; exists s; exact R | right; exists s; rewrite R1; exact R]. }
  split.
  { intros n RN. rewrite R1 in RN. destruct (file f1 l (key_file n)) as [x|] eqn:EF; [|reflexivity]. exfalso.
    assert (NV : forall m, c = CmdRevoke m -> m <> n).
    { intros m -> ->. destruct (C47_command l f ks _ es f1 (Ok tt) HL HN HC HX) as [(_ & _ & _ & _ & D)|((e & C) & _)]; [|discriminate]. rewrite (D n eq_refl) in EF. discriminate. }
    rewrite HG in EF by (intros m E; right; intros C; apply key_file_inj in C; symmetry in C; exact (NV m E C)).
    assert (OLD : ring_of ks n = None).
    { destruct (ring_of ks n) as [[s k]|] eqn:E; [|reflexivity]. exfalso. rewrite RE in RN. destruct (ring_cmd_kept _ _ _ _ _ _ _ RC E NV) as (s2 & C). congruence. }
    destruct (in_dec (list_eq_dec Byte.byte_eq_dec) (key_file n) (map fst (set_writes ks'))) as [HI|HI].
    - apply in_map_iff in HI as ([a b] & E & HI). cbn [fst] in E. subst a. destruct (WK n b HI) as (k & _ & _ & [(s & R)|(s & R)]); [congruence | rewrite R1 in R; congruence].
    - rewrite S4 in EF; [rewrite (HT n OLD) in EF; discriminate|]. right. split; [apply key_file_meta|]. intros p Hp E. apply HI. rewrite E. right. apply in_map_iff.
      exists (key_file (num_of (ks_objs ks') p), key_text (snd p)). split; [reflexivity|]. apply in_map_iff. exists p. split; [reflexivity | exact Hp]. }
  split; [exact NT1|]. split; [exact NT2|]. split.
  { intros n s k s2 k2 R R2. rewrite R1, RE in R2. destruct (ring_cmd_keys _ _ _ _ _ _ _ RC R2) as [(s0 & R0)|(R0 & _)]; congruence. }
  split; [intros NV n s k R; rewrite R1, RE; apply (ring_cmd_kept _ _ _ _ _ _ _ RC R); intros m C; exfalso; exact (NV m C)|].
  intros g HDu.
  assert (FC : forall n x, file g l n = Some x -> In (n, x) (set_writes ks') \/ (exists d2, d2 <> [] /\ In (n, x ++ d2) (set_writes ks')) \/ file f l n = Some x).
  { intros n x EF. destruct (H g HDu) as [->|[HDu'|(m & g2 & -> & HW2 & ->)]]; [right; right; exact EF| |].
    - destruct (during_WriteSet ks' l es f g I' W' HD HDu') as (_ & ws1 & ws2 & EW & A & B). rewrite EW.
      destruct (in_dec (list_eq_dec Byte.byte_eq_dec) n (map fst ws1)) as [HI|HI].
      + left. apply in_map_iff in HI as ([a b] & E & HI). cbn [fst] in E. subst a. rewrite (A n b HI) in EF. apply Some_inj in EF as <-. apply in_or_app. left. exact HI.
      + destruct B as [B|(n0 & s0 & ws3 & d1 & d2 & -> & -> & NE & F0 & B)]; [right; right; rewrite <- EF; symmetry; apply B; right; exact HI|].
        destruct (list_eq_dec Byte.byte_eq_dec n n0) as [->|D].
        * right. left. rewrite F0 in EF. apply Some_inj in EF as <-. exists d2. split; [exact NE|]. apply in_or_app. right. left. reflexivity.
        * right. right. rewrite <- EF. symmetry. apply B. right. intros [C|C]; [congruence | exact (HI C)].
    - rewrite HW2 in HW. apply pair_inj in HW as [<- _].
      assert (EF2 : file g2 l n = Some x).
      { rewrite file_del, str_eqb_refl in EF. cbn [andb] in EF. destruct (str_eqb (key_file m) n); [discriminate | exact EF]. }
      destruct (in_dec (list_eq_dec Byte.byte_eq_dec) n (map fst (set_writes ks'))) as [HI|HI].
      + left. apply in_map_iff in HI as ([a b] & E & HI). cbn [fst] in E. subst a. rewrite (SD n b HI) in EF2. apply Some_inj in EF2 as <-. exact HI.
      + right. right. rewrite <- EF2. symmetry. apply S4. right. split; [intros ->; apply HI; left; reflexivity|]. intros p Hp ->. apply HI. right. apply in_map_iff.
        exists (key_file (num_of (ks_objs ks') p), key_text (snd p)). split; [reflexivity|]. apply in_map_iff. exists p. split; [reflexivity | exact Hp]. }
  assert (MF : forall x, In (meta_file, x) (set_writes ks') -> x = meta_text ks' None).
  { intros x [E|HI]; [injection E as <-; reflexivity|]. exfalso. apply in_map_iff in HI as (p & E & _). injection E as E _. exact (key_file_meta _ E). }
  split.
  - intros s m EF ER. destruct (FC _ _ EF) as [HI|[(d2 & NE & HI)|HI]]; [right; rewrite (MF _ HI); exact FM | exfalso | left; exact HI].
    apply MF in HI. destruct (loads_meta _ _ _ _ L1 FM) as (m2 & ER2). destruct (meta_object _ _ ER) as (o1 & O1). destruct (meta_object _ _ ER2) as (o2 & O2).
    destruct (meta_text_brace ks' None) as (q & EQ). rewrite <- HI in O2, EQ. exact (torn_object s d2 q _ o1 NE EQ O2 O1).
  - intros n x k EF ER. destruct (FC _ _ EF) as [HI|[(d2 & NE & HI)|HI]]; [|exfalso | left; apply (NOW n x k HI ER)].
    + destruct (WK n x HI) as (k2 & _ & ER2 & Q). rewrite ER in ER2. apply Ok_inj in ER2 as <-. exact Q.
    + destruct (WK n _ HI) as (k2 & E2 & ER2 & _). destruct (key_object _ _ _ ER) as (o1 & O1). destruct (key_object _ _ _ ER2) as (o2 & O2).
      destruct (key_text_brace k2) as (q & EQ). rewrite <- E2 in EQ. exact (torn_object x d2 q _ o1 NE EQ O2 O1).
Qed.

Lemma loadable_fun f l ks ks2 : loadable f l ks -> loadable f l ks2 -> ks = ks2.
Proof. unfold loadable. intros H1 H2. rewrite H1 in H2. apply pair_inj in H2 as [_ H2]. apply Ok_inj in H2. exact H2. Qed.

Lemma commands_moments l : forall cs f ks, loadable f l ks -> text_ok (ks_name ks) -> Forall (fun c => kcmd_ok (fst c)) cs -> tidy f l ks ->
  let qs := map (command_prog l) cs in
  (forall i, exists ksi, loadable (disk_after f qs i) l ksi /\ tidy (disk_after f qs i) l ksi /\ ks_type ksi = ks_type ks) /\
  forall g, moments f qs g ->
    (forall s m, file g l meta_file = Some s -> meta_Read s = Ok m -> exists i, (i <= length cs)%nat /\ file (disk_after f qs i) l meta_file = Some s) /\
    (forall n x k, file g l (key_file n) = Some x -> ReadKey (ks_type ks) x = Ok k -> exists i ksi s, loadable (disk_after f qs i) l ksi /\ ring_of ksi n = Some (s, k)).
Proof.
  induction cs as [|[c es] cs IH]; intros f ks HL HN HC HT qs.
  - split.
    + intros i. exists ks. destruct i; (split; [exact HL|]; split; [exact HT | reflexivity]).
    + intros g ->. split; [intros s m EF _; exists 0%nat; split; [lia | exact EF]|]. intros n x k EF ER.
      destruct (ring_of ks n) as [[s k0]|] eqn:E; [|rewrite (HT n E) in EF; discriminate]. destruct (opened_files _ l f ks n s k0 (loadable_open _ _ _ HL) E) as (x0 & F & RK & _).
      rewrite EF in F. apply Some_inj in F as <-. rewrite ER in RK. apply Ok_inj in RK as <-. exists 0%nat, ks, s. split; [exact HL | exact E].
  - inversion HC as [|? ? HC1 HC2]; subst. cbn [fst] in HC1. destruct (one_command l f ks c es HL HN HC1 HT) as (ks1 & L1 & T1 & N1 & Y1 & _ & _ & M1).
    assert (HN1 : text_ok (ks_name ks1)) by (rewrite N1; exact HN). destruct (IH _ ks1 L1 HN1 HC2 T1) as [A B]. split.
    + intros [|i]; [exists ks; split; [exact HL|]; split; [exact HT | reflexivity]|]. rewrite <- Y1. apply (A i).
    + intros g [HG|HG].
      * destruct (M1 g HG) as [MA MB]. split.
        -- intros s m EF ER. destruct (MA s m EF ER) as [F|F]; [exists 0%nat | exists 1%nat]; (split; [cbn [length]; lia|]); [exact F|]. destruct cs; exact F.
        -- intros n x k EF ER. destruct (MB n x k EF ER) as [(s & R)|(s & R)]; [exists 0%nat, ks, s; split; [exact HL | exact R] | exists 1%nat, ks1, s; split; [destruct cs; exact L1 | exact R]].
      * destruct (B g HG) as [BA BB]. split.
        -- intros s m EF ER. destruct (BA s m EF ER) as (i & Hi & F). exists (S i). split; [cbn [length]; lia | exact F].
        -- intros n x k EF ER. rewrite <- Y1 in ER. destruct (BB n x k EF ER) as (i & ksi & s & L & R). exists (S i), ksi, s. split; [exact L | exact R].
Qed.

(** No version number holds different keys in the sets that the commands leave behind. *)
Definition numbers_kept (l : str) (f : disk) (qs : list (prog unit)) : Prop :=
  forall i j ksi ksj n s k s' k', loadable (disk_after f qs i) l ksi -> loadable (disk_after f qs j) l ksj ->
    ring_of ksi n = Some (s, k) -> ring_of ksj n = Some (s', k') -> k = k'.

(** The contents of two key sets are the same. *)
Definition same_contents (ks ks' : keyset) : Prop :=
  ks_name ks = ks_name ks' /\ ks_purpose ks = ks_purpose ks' /\ ks_type ks = ks_type ks' /\ ks_encrypted ks = ks_encrypted ks' /\ forall n, ring_of ks n = ring_of ks' n.

Lemma history_reader cl l f ks cs rd ks' : loadable f l ks -> text_ok (ks_name ks) -> tidy f l ks -> Forall (fun c => kcmd_ok (fst c)) cs ->
  let qs := map (command_prog l) cs in
  open_keyset cl rd = Ok ks' -> (exists g, moments f qs g /\ rd_meta rd = answer (file g l meta_file)) ->
  (forall n, exists g, moments f qs g /\ rd_key rd n = answer (file g l (key_file n))) -> numbers_kept l f qs ->
  exists i ksi, (i <= length cs)%nat /\ loadable (disk_after f qs i) l ksi /\ same_contents ks' ksi.
Proof.
  intros HL HN HT HC qs HO (g0 & P0 & E0) HK NK. destruct (commands_moments l cs f ks HL HN HC HT) as [A B]. fold qs in A, B.
  destruct (open_ok _ _ _ HO) as (s0 & m & ls & EM & ER & EA & EE & _). rewrite EM in E0. destruct (file g0 l meta_file) as [s|] eqn:F0; [|discriminate]. apply Ok_inj in E0 as ->.
  destruct (proj1 (B g0 P0) s m F0 ER) as (i & Hi & Fi). destruct (A i) as (ksi & Li & _ & Ti). exists i, ksi. split; [exact Hi|]. split; [exact Li|].
  pose proof (loadable_open _ _ _ Li) as HOi.
  assert (MF : metadata_for cl rd m) by (exists s; split; [exact EM|]; split; [exact ER|]; split; [apply acceptable, EA | exact EE]).
  assert (MFi : metadata_for GenericKeyczar (file_reader (disk_after f qs i) l) m).
  { destruct (open_ok _ _ _ HOi) as (s2 & m2 & ls2 & EM2 & ER2 & EA2 & EE2 & _). cbn [file_reader rd_meta] in EM2. rewrite Fi in EM2. apply Ok_inj in EM2 as <-. rewrite ER in ER2. apply Ok_inj in ER2 as <-.
    exists s. split; [cbn [file_reader rd_meta]; rewrite Fi; reflexivity|]. split; [exact ER|]. split; [apply acceptable, EA2 | exact EE2]. }
  destruct (C75_contents _ _ _ _ HO MF) as (C1 & C2 & C3 & C4 & C5 & C6). destruct (C75_contents _ _ _ _ HOi MFi) as (D1 & D2 & D3 & D4 & D5 & D6).
  split; [congruence|]. split; [congruence|]. split; [congruence|]. split; [congruence|]. intros n.
  destruct (ring_of ks' n) as [[st k]|] eqn:R.
  - destruct (ring_of ksi n) as [[st' k']|] eqn:R'.
    + pose proof R as R0. apply C5 in R0. destruct R0 as (v & V1 & V2 & V3 & x & h & V4 & V5 & V6). pose proof R' as R0. apply D5 in R0. destruct R0 as (v' & W1 & W2 & W3 & _).
      assert (EK : k = k').
      { destruct (HK (v_num v)) as (g1 & P1 & E1). rewrite V4, V2 in E1. destruct (file g1 l (key_file n)) as [y|] eqn:EF; [|discriminate]. apply Ok_inj in E1 as ->.
        rewrite <- D3, Ti in V5. destruct (proj2 (B g1 P1) n y k EF V5) as (j & ksj & sj & Lj & Rj). apply (NK j i ksj ksi n sj k st' k' Lj Li Rj R'). }
      subst k'. assert (R2 : ring_of ks' n = Some (st', k)).
      { apply C5. exists v'. split; [exact W1|]. split; [exact W2|]. split; [exact W3|]. exists x, h. rewrite W2, <- V2. split; [exact V4|]. split; assumption. }
      congruence.
    + exfalso. apply (proj1 (D6 n) R'). apply C5 in R as (v & V1 & V2 & _). exists v. split; assumption.
  - symmetry. apply D6. apply C6. exact R.
Qed.

Theorem C78_history_partial : forall cl l f ks cs g ks', loadable f l ks -> text_ok (ks_name ks) -> tidy f l ks -> Forall (fun c => kcmd_ok (fst c)) cs ->
  let qs := map (command_prog l) cs in
  meanwhile f (open_files cl l None) qs g (Ok ks') -> numbers_kept l f qs ->
  exists i ksi, (i <= length cs)%nat /\ loadable (disk_after f qs i) l ksi /\ same_contents ks' ksi.
Proof.
  intros cl l f ks cs g ks' HL HN HT HC qs HM NK. destruct (meanwhile_seen _ _ _ _ _ HM (reads_open cl l None)) as [HS _].
  destruct (seen_open (moments f qs) cl l f (Ok ks') (moments_now _ _) HS) as (rd & HO & HE & HK). apply (history_reader cl l f ks cs rd ks' HL HN HT HC HO HE HK NK).
Qed.
Print Assumptions C78_history_partial.

(** Commands that revoke nothing keep every number... *)
Lemma disk_after_ge f : forall qs i, (length qs <= i)%nat -> disk_after f qs i = disk_after f qs (length qs).
Proof. intros qs. revert f. induction qs as [|q qs IH]; intros f i Hi; [destruct i; reflexivity|]. destruct i; [cbn in Hi; lia|]. cbn [disk_after length]. apply IH. cbn in Hi. lia. Qed.

Lemma kept_later l : forall cs f ks, loadable f l ks -> text_ok (ks_name ks) -> tidy f l ks -> Forall (fun c => kcmd_ok (fst c)) cs ->
  (forall c m, In c cs -> fst c <> CmdRevoke m) -> let qs := map (command_prog l) cs in
  forall i j ksi ksj n s k, (i <= j)%nat -> loadable (disk_after f qs i) l ksi -> loadable (disk_after f qs j) l ksj -> ring_of ksi n = Some (s, k) -> exists s', ring_of ksj n = Some (s', k).
Proof.
  induction cs as [|[c es] cs IH]; intros f ks HL HN HT HC NV qs i j ksi ksj n s k Hij Li Lj R.
  - assert (E : forall i, disk_after f qs i = f) by (intros []; reflexivity). rewrite E in Li, Lj. rewrite (loadable_fun _ _ _ _ Lj Li). exists s. exact R.
  - inversion HC as [|? ? HC1 HC2]; subst. cbn [fst] in HC1. destruct (one_command l f ks c es HL HN HC1 HT) as (ks1 & L1 & T1 & N1 & Y1 & _ & K1 & _).
    assert (HN1 : text_ok (ks_name ks1)) by (rewrite N1; exact HN). assert (NV2 : forall c m, In c cs -> fst c <> CmdRevoke m) by (intros c2 m H2; apply NV; right; exact H2).
    pose proof (IH _ ks1 L1 HN1 T1 HC2 NV2) as IH1. cbn zeta in IH1.
    destruct i as [|i], j as [|j]; [| | lia |].
    + rewrite (loadable_fun _ _ _ _ Lj Li). exists s. exact R.
    + cbn [disk_after] in Li. rewrite (loadable_fun _ _ _ _ Li HL) in R. destruct (K1 (fun m => NV (c, es) m (or_introl eq_refl)) n s k R) as (s1 & R1).
      assert (L0 : loadable (disk_after (fst (exec (kcmd_prog l c es) f)) (map (command_prog l) cs) 0) l ks1) by (destruct cs; exact L1).
      apply (IH1 0%nat j ks1 ksj n s1 k ltac:(lia) L0 Lj R1).
    + apply (IH1 i j ksi ksj n s k ltac:(lia) Li Lj R).
Qed.

Lemma kept_no_revocation l f ks cs : loadable f l ks -> text_ok (ks_name ks) -> tidy f l ks -> Forall (fun c => kcmd_ok (fst c)) cs ->
  (forall c m, In c cs -> fst c <> CmdRevoke m) -> numbers_kept l f (map (command_prog l) cs).
Proof.
  intros HL HN HT HC NV i j ksi ksj n s k s' k' Li Lj Ri Rj. destruct (Nat.le_ge_cases i j) as [H|H].
  - destruct (kept_later l cs f ks HL HN HT HC NV i j ksi ksj n s k H Li Lj Ri) as (s2 & R2). congruence.
  - destruct (kept_later l cs f ks HL HN HT HC NV j i ksj ksi n s' k' H Lj Li Rj) as (s2 & R2). congruence.
Qed.

Theorem C78_no_revocation : forall cl l f ks cs g ks', loadable f l ks -> text_ok (ks_name ks) -> tidy f l ks -> Forall (fun c => kcmd_ok (fst c)) cs ->
  (forall c m, In c cs -> fst c <> CmdRevoke m) -> let qs := map (command_prog l) cs in
  meanwhile f (open_files cl l None) qs g (Ok ks') ->
  exists i ksi, (i <= length cs)%nat /\ loadable (disk_after f qs i) l ksi /\ same_contents ks' ksi.
Proof.
  intros cl l f ks cs g ks' HL HN HT HC NV qs HM. apply (C78_history_partial cl l f ks cs g ks' HL HN HT HC HM). apply (kept_no_revocation l f ks cs HL HN HT HC NV).
Qed.
Print Assumptions C78_no_revocation.

(** ... and so does a single command of any kind. *)
Lemma kept_single l f ks c es : loadable f l ks -> text_ok (ks_name ks) -> tidy f l ks -> kcmd_ok c ->
  numbers_kept l f [kcmd_prog l c es] /\ exists ks1, loadable (fst (exec (kcmd_prog l c es) f)) l ks1 /\
    forall i x, loadable (disk_after f [kcmd_prog l c es] i) l x -> x = ks \/ x = ks1.
Proof.
  intros HL HN HT HC. destruct (one_command l f ks c es HL HN HC HT) as (ks1 & L1 & _ & _ & _ & K1 & _).
  assert (AT : forall i x, loadable (disk_after f [kcmd_prog l c es] i) l x -> x = ks \/ x = ks1).
  { intros [|[|i]] x Hx; [left; apply (loadable_fun _ _ _ _ Hx HL) | right; apply (loadable_fun _ _ _ _ Hx L1) | right; apply (loadable_fun _ _ _ _ Hx L1)]. }
  split; [|exists ks1; split; [exact L1 | exact AT]].
  intros i j ksi ksj n s k s' k' Li Lj Ri Rj. destruct (AT _ _ Li) as [->| ->], (AT _ _ Lj) as [->| ->]; try congruence.
  - apply (K1 n s k s' k' Ri Rj).
  - symmetry. apply (K1 n s' k' s k Rj Ri).
Qed.

Theorem C78_one_command : forall cl l f ks c es g ks', loadable f l ks -> text_ok (ks_name ks) -> tidy f l ks -> kcmd_ok c ->
  meanwhile f (open_files cl l None) [kcmd_prog l c es] g (Ok ks') ->
  same_contents ks' ks \/ exists ks1, loadable g l ks1 /\ same_contents ks' ks1.
Proof.
  intros cl l f ks c es g ks' HL HN HT HC HM. pose proof (proj2 (meanwhile_seen _ _ _ _ _ HM (reads_open cl l None))) as EG. cbn [length disk_after] in EG.
  destruct (kept_single l f ks c es HL HN HT HC) as (NK & ks1 & L1 & AT).
  destruct (C78_history_partial cl l f ks [(c, es)] g ks' HL HN HT ltac:(repeat constructor; exact HC) HM NK) as (i & ksi & _ & Li & SC).
  destruct (AT _ _ Li) as [->| ->]; [left; exact SC | right; exists ks1]. rewrite EG. split; assumption.
Qed.
Print Assumptions C78_one_command.

(** Whoever opens a set changes nothing: the commands leave what they leave on their own, and a directory
    without other key files stays like that. *)
Theorem C78_reader_disturbs_nothing : forall cl l cr f qs g r, meanwhile f (open_files cl l cr) qs g r -> g = disk_after f qs (length qs).
Proof. intros cl l cr f qs g r H. apply (meanwhile_seen _ _ _ _ _ H (reads_open cl l cr)). Qed.
Print Assumptions C78_reader_disturbs_nothing.

Theorem C78_tidy : forall l f ks cs i, loadable f l ks -> text_ok (ks_name ks) -> tidy f l ks -> Forall (fun c => kcmd_ok (fst c)) cs ->
  exists ksi, loadable (disk_after f (map (command_prog l) cs) i) l ksi /\ tidy (disk_after f (map (command_prog l) cs) i) l ksi.
Proof.
  intros l f ks cs i HL HN HT HC. destruct (proj1 (commands_moments l cs f ks HL HN HC HT) i) as (ksi & A & B & _). exists ksi. split; assumption.
Qed.
Print Assumptions C78_tidy.

(** ** Where it fails *)

Fixpoint some_steps (n : nat) (f : disk) (q : prog unit) : disk * prog unit :=
  match n with O => (f, q) | S n => let '(f', q') := dstep f q in some_steps n f' q' end.
Lemma mw_some {A} n : forall f (p : prog A) q qs g r, meanwhile (fst (some_steps n f q)) p (snd (some_steps n f q) :: qs) g r -> meanwhile f p (q :: qs) g r.
Proof.
  induction n as [|n IH]; intros f p q qs g r H; [exact H|]. cbn [some_steps] in H. destruct (dstep f q) as [f' q'] eqn:E. apply (MwRuns f p q qs f' q' g r E). apply IH, H.
Qed.
Lemma mw_all {A} q : forall f (p : prog A) qs g r, meanwhile (fst (exec q f)) p qs g r -> meanwhile f p (q :: qs) g r.
Proof.
  induction q as [x|l n k IH|l k IH|l n k IH|l n k IH|l n d k IH|l n k IH|l k IH]; intros f p qs g r H.
  { apply MwNext. exact H. }
  all: cbn [exec] in H. 5: { eapply MwRuns; [reflexivity|]. apply IH, H. }
  1-3, 6: eapply MwRuns; [reflexivity|]; apply IH, H.
  - destruct (has_dir f l) eqn:E; (eapply MwRuns; [cbn [dstep]; rewrite E; reflexivity|]; apply IH, H).
  - destruct (file f l n) eqn:E; (eapply MwRuns; [cbn [dstep]; rewrite E; reflexivity|]; apply IH, H).
Qed.
Lemma mw_alone {A} f (p : prog A) : reads p -> meanwhile f p [] f (snd (exec p f)).
Proof.
  induction p as [x|l n k IH|l k IH|l n k IH|l n k IH|l n d k IH|l n k IH|l k IH]; cbn [reads exec]; intros R; try contradiction; [constructor|..]; (eapply MwReads; [reflexivity | apply IH, R]).
Qed.


Definition hm : str := bs "/hmac".
Definition reuse_cmds : list command :=
  [(CmdDemote 2, one_env); (CmdDemote 2, one_env); (CmdRevoke 2, one_env); (CmdAddKey ACTIVE (-1) [zero_draw x2a], one_env)].
Lemma reuse_ok : Forall (fun c => kcmd_ok (fst c)) reuse_cmds.
Proof.
  unfold reuse_cmds. apply Forall_cons; [exact Logic.I|]. apply Forall_cons; [exact Logic.I|]. apply Forall_cons; [exact Logic.I|]. apply Forall_cons; [|apply Forall_nil].
  cbn [fst kcmd_ok draws_ok]. repeat constructor; cbn; lia.
Qed.
Definition is_ok {A} (r : res A) : bool := match r with Ok _ => true | Raise _ => false end.
Lemma is_ok_Ok {A} (r : res A) : is_ok r = true -> exists a, r = Ok a.
Proof. destruct r as [a|e]; [exists a; reflexivity | discriminate]. Qed.
Definition first_read {A} (f : disk) (p : prog A) : prog A := snd (dstep f p).

Lemma test_tidy : tidy test_disk hm hmac_set.
Proof.
  intros n HN. destruct (file test_disk hm (key_file n)) as [x|] eqn:E; [|reflexivity]. exfalso.
  assert (HI : In (key_file n) [bs "meta"; bs "1"; bs "2"]).
  { unfold file, test_disk in E. change (assoc str_eqb _ hm) with (Some [(bs "meta", hmac_meta); (bs "1", hmac_1); (bs "2", hmac_2)]) in E. cbn [assoc] in E.
    destruct (str_eqb (bs "meta") (key_file n)) eqn:E1; [apply str_eqb_eq in E1; left; exact E1|]. destruct (str_eqb (bs "1") (key_file n)) eqn:E2; [apply str_eqb_eq in E2; right; left; exact E2|].
    destruct (str_eqb (bs "2") (key_file n)) eqn:E3; [apply str_eqb_eq in E3; right; right; left; exact E3 | discriminate]. }
  destruct HI as [HI|[HI|[HI|[]]]].
  - exact (key_file_meta n (eq_sym HI)).
  - change (bs "1") with (key_file 1) in HI. apply key_file_inj in HI as <-. vm_compute in HN. discriminate.
  - change (bs "2") with (key_file 2) in HI. apply key_file_inj in HI as <-. vm_compute in HN. discriminate.
Qed.

Lemma loaded_exec f l ks : loadable f l ks -> snd (exec (open_files GenericKeyczar l None) f) = Ok ks.
Proof. unfold loadable. intros ->. reflexivity. Qed.

(** A number can be used again after a revocation: whoever has read the old metadata then reads the new key
    under the old status. *)
Theorem C78_reused_number_refuted : exists l f ks cs g ks', loadable f l ks /\ text_ok (ks_name ks) /\ tidy f l ks /\ Forall (fun c => kcmd_ok (fst c)) cs /\
  meanwhile f (open_files GenericKeyczar l None) (map (command_prog l) cs) g (Ok ks') /\
  forall i ksi, loadable (disk_after f (map (command_prog l) cs) i) l ksi -> ~ same_contents ks' ksi.
Proof.
  set (qs := map (command_prog hm) reuse_cmds). set (p1 := first_read test_disk (open_files GenericKeyczar hm None)).
  destruct (is_ok_Ok (snd (exec p1 (disk_after test_disk qs 4)))) as (ks' & HR); [vm_compute; reflexivity|].
  exists hm, test_disk, hmac_set, reuse_cmds, (disk_after test_disk qs 4), ks'.
  split; [exact hmac_loadable|]. split; [apply (tx_ok "Test")|]. split; [exact test_tidy|]. split; [|split].
  - exact reuse_ok.
  - eapply MwReads; [reflexivity|]. fold p1. change (map (command_prog hm) reuse_cmds) with qs.
    unfold qs, reuse_cmds. cbn [map]. do 4 apply mw_all. rewrite <- HR. apply mw_alone. apply (proj2 (reads_dstep test_disk _ _ _ (reads_open GenericKeyczar hm None) eq_refl)).
  - intros i ksi Li (_ & _ & _ & _ & SC). specialize (SC 2). change (map (command_prog hm) reuse_cmds) with qs in Li.
    assert (Hi : exists j, (j <= 4)%nat /\ disk_after test_disk qs i = disk_after test_disk qs j).
    { destruct (Nat.le_ge_cases i 4) as [H|H]; [exists i; split; [exact H | reflexivity] | exists 4%nat; split; [lia|]]. apply (disk_after_ge test_disk qs i). exact H. }
    destruct Hi as (j & Hj & E). rewrite E in Li. clear E. apply loaded_exec in Li.
    assert (X : option_map fst (ring_of ks' 2) = Some PRIMARY).
    { assert (Y : match snd (exec p1 (disk_after test_disk qs 4)) with Ok x => option_map fst (ring_of x 2) | Raise _ => None end = Some PRIMARY) by (vm_compute; reflexivity). rewrite HR in Y. exact Y. }
    assert (X2 : ring_of ks' 2 <> ring_of hmac_set 2).
    { assert (Y : match snd (exec p1 (disk_after test_disk qs 4)) with Ok x => ring_of x 2 <> ring_of hmac_set 2 | Raise _ => True end) by (vm_compute; discriminate). rewrite HR in Y. exact Y. }
    rewrite SC in X, X2.
    assert (W : match snd (exec (open_files GenericKeyczar hm None) (disk_after test_disk qs j)) with
                | Ok x => option_map fst (ring_of x 2) = Some PRIMARY -> ring_of x 2 = ring_of hmac_set 2 | Raise _ => True end).
    { destruct j as [|[|[|[|[|j]]]]]; [..|lia]; vm_compute; intros C; try discriminate C; reflexivity. }
    rewrite Li in W. apply X2, W, X.
Qed.
Print Assumptions C78_reused_number_refuted.

(** A revocation that is interrupted before it removes the key file leaves the revoked key behind; the next
    addkey uses its number, and whoever opens the set at that moment uses the revoked key as the new primary key. *)
Definition demoted : disk := disk_after test_disk (map (command_prog hm) reuse_cmds) 2.
Lemma demoted_eq : disk_after test_disk (map (command_prog hm) reuse_cmds) 2 = demoted.
Proof. unfold demoted. reflexivity. Qed.
Definition crashed : disk := fst (some_steps 11 demoted (kcmd_prog hm (CmdRevoke 2) one_env)).
Definition add_cmd : kcmd := CmdAddKey PRIMARY (-1) [zero_draw x2a].
Definition adding : disk := fst (some_steps 8 crashed (kcmd_prog hm add_cmd one_env)).
Definition added : disk := fst (exec (kcmd_prog hm add_cmd one_env) crashed).
Definition opened_at (f : disk) : res keyset := snd (exec (open_files GenericKeyczar hm None) f).

Lemma during_some n : forall f q, during f q (fst (some_steps n f q)).
Proof. induction n as [|n IH]; intros f q; [constructor|]. cbn [some_steps]. destruct (dstep f q) as [f' q'] eqn:E. apply (DurStep _ _ _ _ _ E). apply IH. Qed.
Lemma exec_some n : forall f q, exec (snd (some_steps n f q)) (fst (some_steps n f q)) = exec q f.
Proof. induction n as [|n IH]; intros f q; [reflexivity|]. cbn [some_steps]. destruct (dstep f q) as [f' q'] eqn:E. rewrite IH. symmetry. apply (exec_dstep _ _ _ _ E). Qed.
Lemma mw_midway n f q cl l r : snd (exec (open_files cl l None) (fst (some_steps n f q))) = r -> meanwhile f (open_files cl l None) [q] (fst (exec q f)) r.
Proof.
  intros <-. apply (mw_some n). rewrite <- (exec_some n f q). generalize (fst (some_steps n f q)), (snd (some_steps n f q)). clear. intros mid rest.
  generalize (open_files cl l None), (reads_open cl l None).
  induction p as [x|l0 n k IH|l0 k IH|l0 n k IH|l0 n k IH|l0 n d k IH|l0 n k IH|l0 k IH]; cbn [reads exec snd]; intros R; try contradiction;
        [apply mw_all; constructor|..]; (eapply MwReads; [reflexivity | apply IH, R]).
Qed.
Lemma opened_loadable f ks : opened_at f = Ok ks <-> loadable f hm ks.
Proof.
  unfold opened_at, loadable. pose proof (exec_reads _ (reads_open GenericKeyczar hm None) f) as E. destruct (exec (open_files GenericKeyczar hm None) f) as [x y]. cbn [fst snd] in *. subst x.
  split; [intros ->; reflexivity | intros H; apply pair_inj in H as [_ H]; exact H].
Qed.
Lemma four_sets : match opened_at demoted, opened_at crashed, opened_at adding, opened_at added with
  | Ok x, Ok y, Ok z, Ok w => ks_name x = ks_name hmac_set /\ (exists k, ring_of x 2 = Some (INACTIVE, k) /\ ring_of z 2 = Some (PRIMARY, k)) /\ ring_of y 2 = None /\ ring_of z 2 <> ring_of w 2
  | _, _, _, _ => False end.
Proof. vm_compute. split; [reflexivity|]. split; [eexists; split; reflexivity|]. split; [reflexivity | discriminate]. Qed.
Lemma demoted_tidy : exists ks, loadable demoted hm ks /\ tidy demoted hm ks.
Proof.
  destruct (C78_tidy hm test_disk hmac_set reuse_cmds 2 hmac_loadable (tx_ok "Test") test_tidy reuse_ok) as (ks & H). exists ks. rewrite <- demoted_eq. exact H.
Qed.
Lemma crashed_during : during demoted (kcmd_prog hm (CmdRevoke 2) one_env) crashed.
Proof. unfold crashed. apply during_some. Qed.
Lemma adding_seen r : opened_at adding = r -> meanwhile crashed (open_files GenericKeyczar hm None) [kcmd_prog hm add_cmd one_env] added r.
Proof. unfold opened_at, adding, added. apply mw_midway. Qed.

Theorem C78_leftover_file_refuted : exists l f ks f1 ks1 c g ks' k, loadable f l ks /\ text_ok (ks_name ks) /\ tidy f l ks /\
  ring_of ks 2 = Some (INACTIVE, k) /\ during f (kcmd_prog l (CmdRevoke 2) one_env) f1 /\ loadable f1 l ks1 /\ ring_of ks1 2 = None /\ kcmd_ok c /\
  meanwhile f1 (open_files GenericKeyczar l None) [kcmd_prog l c one_env] g (Ok ks') /\ ring_of ks' 2 = Some (PRIMARY, k) /\
  forall ks2, loadable g l ks2 -> ~ same_contents ks' ks2.
Proof.
  destruct demoted_tidy as (ks & L0 & T0). pose proof four_sets as S4. rewrite (proj2 (opened_loadable _ _) L0) in S4.
  destruct (opened_at crashed) as [ks1|] eqn:E1; [|contradiction]. destruct (opened_at adding) as [ks'|] eqn:E2; [|contradiction]. destruct (opened_at added) as [ks2|] eqn:E3; [|contradiction].
  destruct S4 as (EN & (k & R0 & R2) & R1 & R3). exists hm, demoted, ks, crashed, ks1, add_cmd, added, ks', k.
  split; [exact L0|]. split; [rewrite EN; apply (tx_ok "Test")|]. split; [exact T0|]. split; [exact R0|]. split; [exact crashed_during|]. split; [apply opened_loadable, E1|].
  split; [exact R1|]. split; [cbn [add_cmd kcmd_ok draws_ok]; repeat constructor; cbn; lia|]. split; [apply adding_seen, E2|]. split; [exact R2|].
  intros x Lx (_ & _ & _ & _ & SC). apply opened_loadable in Lx. rewrite E3 in Lx. apply Ok_inj in Lx as <-. exact (R3 (SC 2)).
Qed.
Print Assumptions C78_leftover_file_refuted.

(** A process that opens the set while a key is promoted, between the metadata and the keys. *)
Definition promoting : disk := fst (some_steps 7 test_disk (kcmd_prog hm (CmdPromote 1) one_env)).
Lemma promoting_set : match opened_at promoting with Ok x => option_map fst (ring_of x 1) = Some PRIMARY | Raise _ => False end.
Proof. vm_compute. reflexivity. Qed.
Lemma promoting_seen r : opened_at promoting = r ->
  meanwhile test_disk (open_files GenericKeyczar hm None) [kcmd_prog hm (CmdPromote 1) one_env] (fst (exec (kcmd_prog hm (CmdPromote 1) one_env) test_disk)) r.
Proof. unfold opened_at, promoting. apply mw_midway. Qed.
Example C78_case : loadable test_disk hm hmac_set /\ text_ok (ks_name hmac_set) /\ tidy test_disk hm hmac_set /\ kcmd_ok (CmdPromote 1) /\
  exists g ks', meanwhile test_disk (open_files GenericKeyczar hm None) [kcmd_prog hm (CmdPromote 1) one_env] g (Ok ks') /\
    option_map fst (ring_of ks' 1) = Some PRIMARY.
Proof.
  split; [exact hmac_loadable|]. split; [apply (tx_ok "Test")|]. split; [exact test_tidy|]. split; [exact Logic.I|].
  pose proof promoting_set as PS. destruct (opened_at promoting) as [ks'|] eqn:E; [|contradiction]. eexists _, ks'. split; [apply promoting_seen, E | exact PS].
Qed.
