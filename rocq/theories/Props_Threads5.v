(** * Props_Threads5: threads that make several calls one after the other (C90). *)
From Coq Require Import Strings.String.
From Coq Require Import List ZArith NArith Bool Lia ZifyBool ZifyNat ZifyN.
From Coq.Init Require Import Byte.
From Verif Require Import PyBase PyFacts Util UtilFacts Base64 Json JsonFacts KeyInfo KeyData SymKeys AsymKeys Keys Keyczar KeyRing KeyczarFacts Disk DiskFacts
  Props_Keyset Props_Sign Threads Props_Threads Props_Threads2 Props_Threads3 Props_Threads4.
Import ListNotations.
Local Open Scope Z_scope.
Ltac Zify.zify_post_hook ::= idtac.

(** ** Specification *)

(** One thing after the other in one thread. *)
Fixpoint then_ {A B} (t : thread A) (k : res A -> thread B) : thread B :=
  match t with
  | Finished r => k r
  | Access f => Access (fun ks => let (ks', t') := f ks in (ks', then_ t' k))
  end.

(** A thread that makes the calls [js] and keeps the outcome of each; an exception does not end it. *)
Fixpoint working (js : list job) : thread (list (res (unit + answer))) :=
  match js with
  | [] => Finished (Ok [])
  | j :: js' => then_ (running j) (fun r => tmap (cons r) (working js'))
  end.

(** The outcomes of changes made one after the other. *)
Fixpoint outcomes (ks : keyset) (ops : list op) : list (res unit) :=
  match ops with [] => [] | o :: ops' => snd (step ks o) :: outcomes (fst (step ks o)) ops' end.

(** ** Proofs *)

Lemma keeps_then {A B} (J : keyset -> Prop) (P : res A -> Prop) (Q : res B -> Prop) t k : keeps J P t -> (forall r, P r -> keeps J Q (k r)) -> keeps J Q (then_ t k).
Proof.
  intros H HK. induction H as [r H|f H1 H2 IH]; cbn [then_]; [apply HK, H|]. constructor; intros ks HJ; specialize (H1 ks HJ); specialize (IH ks HJ); destruct (f ks) as [ks' t']; cbn [fst snd] in *; assumption.
Qed.

Lemma alone_then {A B} (t : thread A) (k : res A -> thread B) : forall ks, alone (then_ t k) ks = let (ks', r) := alone t ks in alone (k r) ks'.
Proof. induction t as [r|f IH] using thread_rec2; intros ks; cbn [then_ alone]; [reflexivity|]. specialize (IH ks). destruct (f ks) as [k1 t1]. apply IH. Qed.

Lemma keeps_running ks all j : inv ks -> In j all -> keeps (later ks all) (fun _ => True) (running j).
Proof. intros I H. destruct j as [o|c]; cbn [running]; apply keeps_tmap; [apply keeps_change; assumption | apply keeps_ro, ro_calling]. Qed.

Lemma keeps_working ks all js : inv ks -> incl js all -> keeps (later ks all) (fun _ => True) (working js).
Proof.
  intros I. induction js as [|j js IH]; intros HI; cbn [working]; [constructor; exact Logic.I|].
  apply (keeps_then _ (fun _ => True)); [apply keeps_running; [exact I | apply HI; left; reflexivity]|]. intros r _. apply keeps_tmap, IH. intros y Hy. apply HI. right. exact Hy.
Qed.

Lemma keeps_result ks all c x : inv ks -> gives ks c = Ok x -> settled all c x -> forall js k, incl js all -> nth_error js k = Some (Use c) ->
  keeps (later ks all) (fun r => forall rs, r = Ok rs -> nth_error rs k = Some (Ok (inr x))) (working js).
Proof.
  intros I G S. induction js as [|j js IH]; intros [|k] HI H; cbn [nth_error] in H; [discriminate | discriminate | |]; cbn [working].
  - apply Some_inj in H. subst j. apply (keeps_then _ (fun r => r = Ok (inr x))).
    + cbn [running]. apply keeps_tmap. apply (keeps_weaken ks all (fun r => r = Ok x)); [intros r ->; reflexivity | apply keeps_use; assumption].
    + intros r ->. apply keeps_tmap. apply (keeps_weaken ks all (fun _ => True)); [|apply keeps_working; [exact I | intros y Hy; apply HI; right; exact Hy]].
      intros [l|e] _ rs E; cbn [res_map] in E; [|discriminate]. apply Ok_inj in E. subst rs. reflexivity.
  - apply (keeps_then _ (fun _ => True)); [apply keeps_running; [exact I | apply HI; left; reflexivity]|]. intros r _. apply keeps_tmap. apply (keeps_weaken ks all (fun r => forall rs, r = Ok rs -> nth_error rs k = Some (Ok (inr x)))).
    + intros [l|e] HP rs E; cbn [res_map] in E; [|discriminate]. apply Ok_inj in E. subst rs. cbn [nth_error]. apply HP. reflexivity.
    + apply IH; [intros y Hy; apply HI; right; exact Hy | exact H].
Qed.

Lemma keeps_pool ks jss : inv ks -> forall l, incl l jss -> Forall2 (fun _ t => keeps (later ks (concat jss)) (fun _ => True) t) l (map working l).
Proof.
  intros I. induction l as [|js l IH]; intros HL; cbn [map]; [constructor|]. constructor; [|apply IH; intros y Hy; apply HL; right; exact Hy].
  apply keeps_working; [exact I|]. intros y Hy. apply in_concat. exists js. split; [apply HL; left; reflexivity | exact Hy].
Qed.

(** C90_uses for threads that make any number of calls: at whatever time the call is made. *)
Theorem C90_long_uses : forall ks jss ks' ts i js k c x rs, reached ks -> turns (ks, map working jss) (ks', ts) ->
  nth_error jss i = Some js -> nth_error js k = Some (Use c) -> gives ks c = Ok x -> settled (concat jss) c x ->
  nth_error ts i = Some (Finished (Ok rs)) -> nth_error rs k = Some (Ok (inr x)).
Proof.
  intros ks jss ks' ts i js k c x rs R T HI HK G S HT. pose proof (reached_inv ks R) as I. pose proof (nth_error_In _ _ HI) as HIn. apply nth_error_split in HI as (a & b & EJ & EL).
  set (Q := map (fun _ (_ : res (list (res (unit + answer)))) => True) a ++ (fun r => forall rs, r = Ok rs -> nth_error rs k = Some (Ok (inr x))) :: map (fun _ _ => True) b).
  destruct (keeps_turns (later ks (concat jss)) (fun (P : res (list (res (unit + answer))) -> Prop) => P) Q _ _ T (later_self ks _)) as [_ F].
  - cbn [snd]. unfold Q. replace (map working jss) with (map working (a ++ js :: b)) by (rewrite <- EJ; reflexivity). rewrite map_app. cbn [map].
    assert (AL : forall l, incl l jss -> Forall2 (fun P t => keeps (later ks (concat jss)) P t) (map (fun _ _ => True) l) (map working l)).
    { intros l HL. pose proof (keeps_pool ks jss I l HL) as F. clear -F. revert F. induction l as [|y l IH]; cbn [map]; intros F; [constructor|]. inversion F as [|? ? ? ? F1 F2]; subst. constructor; [exact F1 | apply IH, F2]. }
    apply Forall2_app; [apply AL; intros y Hy; rewrite EJ; apply in_or_app; left; exact Hy|]. constructor; [|apply AL; intros y Hy; rewrite EJ; apply in_or_app; right; right; exact Hy].
    apply (keeps_result ks (concat jss) c x I G S js k); [|exact HK]. intros y Hy. apply in_concat. exists js. split; [exact HIn | exact Hy].
  - cbn [snd] in F. unfold Q in F. assert (L : length (map (fun _ (_ : res (list (res (unit + answer)))) => True) a) = i) by (rewrite map_length; exact EL).
    pose proof (Forall2_mid _ _ _ _ _ F (Finished (Ok rs))) as K. rewrite L in K. specialize (K HT). inversion K as [? HP|]; subst. apply HP. reflexivity.
Qed.
Print Assumptions C90_long_uses.

(** C90_history for threads that make any number of calls. *)
Theorem C90_long_history : forall ks jss ks' ts, reached ks -> turns (ks, map working jss) (ks', ts) ->
  (ks_name ks' = ks_name ks /\ ks_purpose ks' = ks_purpose ks /\ ks_type ks' = ks_type ks /\ ks_encrypted ks' = ks_encrypted ks) /\
  (forall c d x, Decrypt ks c d = Ok x -> Decrypt ks' c d = Ok x) /\
  (forall m s d x, Verify ks m s d = Ok x -> Verify ks' m s d = Ok x) /\
  (forall s n d x, AttachedVerify ks s n d = Ok x -> AttachedVerify ks' s n d = Ok x) /\
  (forall m s d, UnversionedVerify ks m s d = Ok true -> UnversionedVerify ks' m s d = Ok true) /\
  (forall n s k, ring_of ks n = Some (s, k) ->
     (ring_of ks' n = None /\ In (Change (OpRevoke n)) (concat jss)) \/
     exists s', ring_of ks' n = Some (s', k) /\ ((forall p, In (Change p) (concat jss) -> ~ names p n) -> s' = s \/ (s = PRIMARY /\ s' = ACTIVE))).
Proof.
  intros ks jss ks' ts R T. pose proof (reached_inv ks R) as I.
  destruct (keeps_turns (later ks (concat jss)) (fun (_ : list job) _ => True) jss _ _ T (later_self ks _) (keeps_pool ks jss I jss (incl_refl _))) as [J _]. apply later_means; assumption.
Qed.
Print Assumptions C90_long_history.

(** ** One thread changes the set *)

Lemma reached_step ks o : reached ks -> reached (fst (step ks o)).
Proof. intros (c & rd & ks0 & ops & H & ->). exists c, rd, ks0, (ops ++ [o]). split; [exact H|]. unfold run. rewrite fold_left_app. reflexivity. Qed.

Lemma alone_changes ops : forall ks, reached ks -> alone (working (map Change ops)) ks = (run ks ops, Ok (map (res_map inl) (outcomes ks ops))).
Proof.
  induction ops as [|o ops IH]; intros ks R; cbn [map working outcomes]; [reflexivity|]. rewrite alone_then. cbn [running]. rewrite alone_tmap, (proj1 (C90_alone ks R) o).
  pose proof (IH (fst (step ks o)) (reached_step ks o R)) as E. unfold run in *. cbn [fold_left]. destruct (step ks o) as [k1 r1]. cbn [fst snd] in *. rewrite alone_tmap, E. reflexivity.
Qed.

Lemma ro_then {A B} (t : thread A) (k : res A -> thread B) : read_only t -> (forall r, read_only (k r)) -> read_only (then_ t k).
Proof. intros H HK. induction H as [r|f H1 H2 IH]; cbn [then_]; [apply HK|]. constructor; intros ks; specialize (H1 ks); specialize (IH ks); destruct (f ks) as [k1 t1]; cbn [fst snd] in *; assumption. Qed.

Lemma ro_working cs : read_only (working (map Use cs)).
Proof. induction cs as [|c cs IH]; cbn [map working]; [constructor|]. apply ro_then; [cbn [running]; apply ro_tmap, ro_calling|]. intros r. apply ro_tmap, IH. Qed.

(** If one thread makes all changes, then at every moment of every schedule the object is on the way to
    what these calls make of it alone: when that thread has ended, its outcomes and the object are those
    of the calls one after the other. *)
Theorem C90_one_manager : forall ks a ops b ks' ts, reached ks -> turns (ks, map working (map (map Use) a ++ map Change ops :: map (map Use) b)) (ks', ts) ->
  exists t, nth_error ts (length a) = Some t /\ alone t ks' = (run ks ops, Ok (map (res_map inl) (outcomes ks ops))) /\
    (forall r, t = Finished r -> ks' = run ks ops /\ r = Ok (map (res_map inl) (outcomes ks ops))).
Proof.
  intros ks a ops b ks' ts R T. rewrite map_app in T. cbn [map] in T.
  assert (G : forall p q, turns p q -> forall l t m (z : keyset * res (list (res (unit + answer)))), snd p = l ++ t :: m -> length l = length a -> Forall read_only l -> Forall read_only m -> alone t (fst p) = z ->
    exists l' t' m', snd q = l' ++ t' :: m' /\ length l' = length a /\ alone t' (fst q) = z).
  { induction 1 as [p|p q r TT H IH]; intros l t m z EP EL RL RM HA; [exists l, t, m; auto|]. destruct TT as [k1 k2 a0 f t0 b0 EF]. cbn [fst snd] in *.
    assert (AT : forall (l1 l2 l3 l4 : list (thread (list (res (unit + answer))))) u v, l1 ++ u :: l2 = l3 ++ v :: l4 -> (l1 = l3 /\ u = v /\ l2 = l4) \/ (exists m, l3 = l1 ++ u :: m /\ l2 = m ++ v :: l4) \/ (exists m, l1 = l3 ++ v :: m /\ l4 = m ++ u :: l2)).
    { clear. induction l1 as [|y l1 IHl]; intros l2 [|z l3] l4 u v E; cbn [app] in E; injection E as E1 E2; subst.
      - left. auto.
      - right. left. exists l3. split; reflexivity.
      - right. right. exists l1. split; reflexivity.
      - destruct (IHl _ _ _ _ _ E2) as [(-> & -> & ->)|[(m & -> & ->)|(m & -> & ->)]]; [left; auto | right; left; exists m; auto | right; right; exists m; auto]. }
    destruct (AT _ _ _ _ _ _ EP) as [(-> & <- & ->)|[(w & -> & ->)|(w & -> & ->)]].
    - apply (IH l t0 m z eq_refl EL RL RM). cbn [alone] in HA. rewrite EF in HA. exact HA.
    - apply Forall_app in RL as [R1 R2]. inversion R2 as [|? ? R3 R4]; subst. inversion R3 as [|? X1 X2]; subst. specialize (X1 k1). specialize (X2 k1). rewrite EF in X1, X2. cbn [fst snd] in X1, X2. subst k2.
      apply (IH (a0 ++ t0 :: w) t m (alone t k1)); [rewrite <- app_assoc; reflexivity | rewrite app_length in *; exact EL | apply Forall_app; split; [exact R1 | constructor; assumption] | exact RM | reflexivity].
    - apply Forall_app in RM as [R1 R2]. inversion R2 as [|? ? R3 R4]; subst. inversion R3 as [|? X1 X2]; subst. specialize (X1 k1). specialize (X2 k1). rewrite EF in X1, X2. cbn [fst snd] in X1, X2. subst k2.
      apply (IH l t (w ++ t0 :: b0) (alone t k1)); [rewrite <- app_assoc; reflexivity | exact EL | exact RL | apply Forall_app; split; [exact R1 | constructor; assumption] | reflexivity]. }
  assert (RO : forall l : list (list call), Forall read_only (map working (map (map Use) l))) by (intros l; apply Forall_forall; intros t Ht; apply in_map_iff in Ht as (js & <- & Hj); apply in_map_iff in Hj as (cs & <- & _); apply ro_working).
  destruct (G _ _ T (map working (map (map Use) a)) (working (map Change ops)) (map working (map (map Use) b)) (alone (working (map Change ops)) ks) eq_refl) as (l & t & m & E1 & E2 & E3); [rewrite !map_length; reflexivity | apply RO | apply RO | reflexivity|]. rewrite (alone_changes ops ks R) in E3. cbn [fst snd] in *. exists t.
  split; [rewrite E1, <- E2, nth_error_app2, Nat.sub_diag by lia; reflexivity|]. split; [exact E3|]. intros r ->. cbn [alone] in E3. apply pair_inj in E3. exact E3.
Qed.
Print Assumptions C90_one_manager.

(** ** A thread encrypts while another one adds a primary version *)

(** [AddVersion] makes the new version primary before it has drawn the key: until then nothing can be
    encrypted or signed, although that is possible before and after. *)
Theorem C90_use_during_add_refuted : forall ks d size k h, reached ks -> In size (sizes (ks_type ks)) -> GenKey d (ks_type ks) (Some size) = Ok k -> key_hash_id k = Ok h ->
  GetKey_hash ks h = Raise (KeyNotFoundError h) ->
  let ks1 := fst (step ks (OpAdd [d] PRIMARY (Some size))) in
  primary_key ks1 = Ok k /\
  (forall e m c, exists x, turns (ks, map running [Use (CEncrypt e m c); Change (OpAdd [d] PRIMARY (Some size))]) (ks1, [Finished (Raise (KeyNotFoundError x)); Finished (Ok (inl tt))])) /\
  (forall e m c, exists x, turns (ks, map running [Use (CSign e m c); Change (OpAdd [d] PRIMARY (Some size))]) (ks1, [Finished (Raise (KeyNotFoundError x)); Finished (Ok (inl tt))])).
Proof.
  intros ks d size k h R HS HG HH HN. pose proof (reached_inv ks R) as I. cbv zeta. set (ks1 := fst (step ks (OpAdd [d] PRIMARY (Some size)))).
  unfold GetKey_hash in HN. destruct (assoc str_eqb (ks_hkeys ks) h) eqn:V; [discriminate|]. clear HN.
  assert (SZ : IsValidSize (ks_type ks) size = true) by (unfold IsValidSize; apply existsb_exists; exists size; split; [exact HS | apply Z.eqb_refl]).
  assert (NV : assoc Nat.eqb (ks_vkeys ks) (length (ks_objs ks)) = None).
  { destruct (assoc Nat.eqb (ks_vkeys ks) (length (ks_objs ks))) as [y|] eqn:E; [|reflexivity]. apply (assoc_In Nat.eqb_eq) in E. apply (in_map fst) in E. pose proof (inv_range ks I _ E) as L. cbn [fst] in L. lia. }
  set (o := length (ks_objs ks)) in *. set (n := max_version ks + 1).
  assert (ST : step ks (OpAdd [d] PRIMARY (Some size)) = (AddKey (add_prepare ks PRIMARY) o k h, Ok tt)).
  { cbn [step]. rewrite AddVersion_eq. cbv zeta. rewrite SZ. cbn [negb gen_unique]. rewrite HG. cbn [bind]. rewrite HH. cbn [bind]. rewrite V. reflexivity. }
  assert (PR : ks_primary (add_prepare ks PRIMARY) = Some o) by (unfold add_prepare; cbn [status_eqb]; reflexivity).
  destruct (prepare_same ks PRIMARY I) as (E1 & E2 & E3 & E4 & E5 & E6 & E7 & E8 & E9). fold o in E9.
  assert (G : forall c : call, (exists e m d, c = CEncrypt e m d \/ c = CSign e m d) -> exists x, turns (ks, map running [Use c; Change (OpAdd [d] PRIMARY (Some size))]) (ks1, [Finished (Raise (KeyNotFoundError x)); Finished (Ok (inl tt))])).
  { intros c HC. assert (GV : exists x, GetKey_version (add_prepare ks PRIMARY) (Some o) = Raise (KeyNotFoundError x)) by (unfold GetKey_version; rewrite E2, NV; eexists; reflexivity). destruct GV as (x & GV). exists x.
    assert (A1 : alone (running (Use c)) (add_prepare ks PRIMARY) = (add_prepare ks PRIMARY, Raise (KeyNotFoundError x))).
    { destruct HC as (e & m & cd & [->| ->]); cbn [running calling]; rewrite !alone_tmap; unfold Encrypt_t, Sign_t, with_primary, read; cbn [alone]; rewrite PR; cbn [alone]; rewrite GV; reflexivity. }
    assert (A2 : alone (tmap inl (gen_t (ks_type ks) size [d] (AddKey_t o n))) (add_prepare ks PRIMARY) = (ks1, Ok (inl tt : unit + answer))).
    { rewrite alone_tmap, alone_gen, E3. cbn [gen_unique]. rewrite HG. cbn [bind]. rewrite HH. cbn [bind]. rewrite V. rewrite alone_AddKey. cbv zeta. unfold ks1. rewrite ST. cbn [fst res_map]. f_equal. unfold AddKey. cbn [set_keys ks_objs ks_mvers]. rewrite E9. cbn [v_num]. reflexivity. }
    change (map running [Use c; Change (OpAdd [d] PRIMARY (Some size))]) with [running (Use c); tmap inl (AddVersion_t [d] PRIMARY (Some size))]. set (U := running (Use c)) in *. clearbody U.
    unfold AddVersion_t, read. cbn [tmap]. eapply second; [reflexivity|]. rewrite SZ. cbn [negb tmap]. eapply second; [reflexivity|]. fold n. fold o. unfold AddVersion_rest. cbn [status_eqb].
    set (k1 := set_objs ks (ks_objs ks ++ [MkVersion n PRIMARY false])).
    assert (L : turns (k1, [U; tmap inl (demote_primary_t (write (fun k => set_primary k (Some o)) (gen_t (ks_type ks) size [d] (AddKey_t o n))))]) (add_prepare ks PRIMARY, [U; tmap inl (gen_t (ks_type ks) size [d] (AddKey_t o n))])).
    { unfold add_prepare. fold n. fold k1. fold o. cbn [status_eqb]. unfold demote_primary_t, read, write. set (rest := gen_t _ _ _ _). clearbody rest. cbn [tmap]. change (ks_primary ks) with (ks_primary k1). eapply second; [reflexivity|]. destruct (ks_primary k1) as [p|] eqn:EP; cbn [tmap].
      - eapply second; [reflexivity|]. rewrite EP. cbn [tmap]. eapply second; [reflexivity|]. eapply second; [reflexivity|]. apply TurnsNone.
      - eapply second; [reflexivity|]. apply TurnsNone. }
    assert (TR : forall p q r : keyset * list (thread (unit + answer)), turns p q -> turns q r -> turns p r) by (intros p q r X; revert r; induction X; intros; [assumption | eapply TurnsMore; eauto]).
    eapply TR; [exact L|]. eapply first_alone; [exact A1|]. eapply second_alone; [exact A2 | apply TurnsNone]. }
  split; [|split; intros e m c; apply G; do 3 eexists; [left | right]; reflexivity].
  unfold ks1. rewrite ST. cbn [fst]. unfold o. rewrite (AddKey_eq ks PRIMARY k h I). unfold primary_key, GetKey_version. cbn [ks_primary ks_vkeys]. rewrite PR. fold o. rewrite assoc_app, NV. cbn [assoc]. rewrite Nat.eqb_refl. reflexivity.
Qed.
Print Assumptions C90_use_during_add_refuted.

(** Threads with several calls each, on the set of testdata/hmac. *)
Example C90_long_case : exists x, Sign zero_env hmac_set (bs "pay 1") None = Ok x /\
  let jss := [[Use (CSign zero_env (bs "pay 2") None); Use (CVerify (bs "pay 1") x None)]; [Change (OpDemote 1); Change (OpRevoke 1); Change (OpDemote 2)]] in
  reached hmac_set /\ gives hmac_set (CVerify (bs "pay 1") x None) = Ok (ATruth true) /\ settled (concat jss) (CVerify (bs "pay 1") x None) (ATruth true) /\
  outcomes hmac_set [OpDemote 1; OpRevoke 1; OpDemote 1] = [Ok tt; Ok tt; Raise KeyczarError].
Proof.
  assert (E : match Sign zero_env hmac_set (bs "pay 1") None with Ok s => Verify hmac_set (bs "pay 1") s None = Ok true | Raise _ => False end) by (vm_compute; reflexivity).
  destruct (Sign zero_env hmac_set (bs "pay 1") None) as [s|]; [|contradiction]. exists s. split; [reflexivity|]. cbv zeta. split; [exact hmac_set_reached|]. split; [cbn [gives]; rewrite E; reflexivity|].
  split; [exact I | reflexivity].
Qed.
