(** * Props_Open: property C75 (when a key set opens, what it then contains and which error is raised otherwise). *)
From Coq Require Import Strings.String.
From Coq Require Import List ZArith NArith Bool Lia ZifyBool ZifyNat ZifyN.
From Coq.Init Require Import Byte.
From Verif Require Import PyBase PyFacts Base64 Base64Facts Sha1 Util UtilFacts Json KeyInfo SymKeys SymFacts AsymKeys Keys KeysFacts
  KeyData Keyczar KeyRing KeyczarFacts ErrFacts Props_Keyset Disk Keyczart DiskFacts CrashFacts.
Import ListNotations.
Local Open Scope Z_scope.
Ltac Zify.zify_post_hook ::= idtac.

(** Version [v] of a set of type [t] has the key [k]: the reader answers with a text for its
    number, the text is that of a key of the type, and the key has an identifier. *)
Definition key_at (rd : reader) (t : ktype) (v : kversion) (k : key) : Prop :=
  exists s h, rd_key rd (v_num v) = Ok s /\ ReadKey t s = Ok k /\ key_hash_id k = Ok h.

(** How loading the key of version [v] fails. *)
Inductive key_fails (rd : reader) (t : ktype) (v : kversion) : exn -> Prop :=
| FailsReader e : rd_key rd (v_num v) = Raise e -> key_fails rd t v e
| FailsText s e : rd_key rd (v_num v) = Ok s -> ReadKey t s = Raise e -> key_fails rd t v e
| FailsId s k e : rd_key rd (v_num v) = Ok s -> ReadKey t s = Ok k -> key_hash_id k = Raise e -> key_fails rd t v e.

(** At most one of the versions is PRIMARY. *)
Definition one_primary (vs : list kversion) : Prop :=
  forall i j v w, nth_error vs i = Some v -> nth_error vs j = Some w -> v_status v = PRIMARY -> v_status w = PRIMARY -> i = j.

(** Reading the metadata of a set that the class accepts. *)
Definition metadata_for (c : kclass) (rd : reader) (m : metadata) : Prop :=
  exists s, rd_meta rd = Ok s /\ meta_Read s = Ok m /\ In (m_purpose m) (accepts c) /\ (m_encrypted m = true -> rd_encrypted rd = true).

Lemma accepts_spec c p : IsAcceptablePurpose c p = true <-> In p (accepts c).
Proof. split; [destruct c, p; intros H; try discriminate H; cbn; tauto | destruct c, p; cbn; intuition discriminate]. Qed.

Lemma open_as c rd m : metadata_for c rd m ->
  open_keyset c rd = let* (p, vk, hk) := load_keys rd (m_type m) 0 (meta_versions m) None [] [] in
    Ok (MkKs (m_name m) (m_purpose m) (m_type m) (m_encrypted m) (meta_versions m)
             (combine (map fst (m_versions m)) (seq 0 (length (meta_versions m)))) vk hk p).
Proof.
  intros (s & HS & HM & HA & HE). unfold open_keyset. rewrite HS. cbn [bind]. rewrite HM. cbn [bind].
  rewrite (proj2 (accepts_spec _ _) HA). cbn [negb].
  replace (m_encrypted m && negb (rd_encrypted rd)) with false by (destruct (m_encrypted m); [rewrite HE by reflexivity|]; reflexivity).
  reflexivity.
Qed.

Lemma find_primary_one o vs p : find_primary o vs None p -> one_primary vs.
Proof.
  intros H i j v w HI HJ HV HW. destruct (find_primary_none _ _ _ H) as [A _].
  pose proof (A i v HI HV) as E1. pose proof (A j w HJ HW) as E2. rewrite E1 in E2. apply Some_inj in E2. lia.
Qed.

Lemma Forall2_all {A B} (R : A -> B -> Prop) l : (forall a, In a l -> exists b, R a b) -> exists l', Forall2 R l l'.
Proof.
  induction l as [|a l IH]; intros H; [exists []; constructor|].
  destruct (H a (or_introl eq_refl)) as (b & Hb). destruct IH as (l' & F); [intros x Hx; apply H; right; exact Hx|].
  exists (b :: l'). constructor; assumption.
Qed.

(** A set opens exactly if its metadata is there and accepted, at most one version is primary, and
    the key of every version, whatever its status, is there. *)
Theorem C75_opens_iff : forall c rd,
  (exists ks, open_keyset c rd = Ok ks) <->
  (exists m, metadata_for c rd m /\ one_primary (meta_versions m) /\
             forall v, In v (meta_versions m) -> exists k, key_at rd (m_type m) v k).
Proof.
  intros c rd. split.
  - intros (ks & H). destruct (open_ok c rd ks H) as (s & m & l & HS & HM & HA & HE & F & _ & _ & _ & _ & _ & _ & _ & _ & FP).
    exists m. split; [exists s; split; [exact HS|]; split; [exact HM|]; split; [apply accepts_spec, HA | exact HE]|].
    split; [apply (find_primary_one _ _ _ FP)|]. intros v HV. clear - F HV. induction F as [|a b vs l R F IH]; [destruct HV|].
    destruct HV as [<-|HV]; [exists b; exact R | apply IH, HV].
  - intros (m & HM & HP & HK). rewrite (open_as c rd m HM). destruct (Forall2_all (key_at rd (m_type m)) _ HK) as (l & F).
    destruct (load_keys_intro rd (m_type m) _ l F 0 None [] []) as (p & hk & ->); [intros C; contradiction C; reflexivity | exact HP|].
    cbn [bind]. eexists. reflexivity.
Qed.
Print Assumptions C75_opens_iff.

(** It then has the name, purpose, type and mark of the metadata, and exactly the versions listed
    there, each with its status and the key that the reader has for it. *)
Theorem C75_contents : forall c rd ks m, open_keyset c rd = Ok ks -> metadata_for c rd m ->
  ks_name ks = m_name m /\ ks_purpose ks = m_purpose m /\ ks_type ks = m_type m /\ ks_encrypted ks = m_encrypted m /\
  (forall n st k, ring_of ks n = Some (st, k) <-> exists v, In v (meta_versions m) /\ v_num v = n /\ v_status v = st /\ key_at rd (m_type m) v k) /\
  (forall n, ring_of ks n = None <-> ~ exists v, In v (meta_versions m) /\ v_num v = n).
Proof.
  intros c rd ks m H (s & HS & HM & HA & HE). pose proof (open_ring c rd ks s m H HS HM) as HR.
  destruct (open_ok c rd ks H) as (s' & m' & l & HS' & HM' & _ & _ & F & E1 & E2 & E3 & E4 & _).
  rewrite HS in HS'. apply Ok_inj in HS' as <-. rewrite HM in HM'. apply Ok_inj in HM' as <-.
  do 4 (split; [assumption|]). pose proof (meta_Read_wf s m HM) as [W1 W2].
  assert (HX : forall v, In v (meta_versions m) <-> assoc Z.eqb (m_versions m) (v_num v) = Some v).
  { intros v. unfold meta_versions. rewrite Forall_forall in W2. split.
    - intros HV. apply in_map_iff in HV as ([n w] & E & HV). cbn [snd] in E. subst w. pose proof (W2 _ HV) as E. cbn [fst snd] in E. subst n.
      clear - HV W1. induction (m_versions m) as [|[a w] vs IH]; [destruct HV|]. cbn [map fst] in W1. inversion W1 as [|? ? N1 N2]; subst.
      cbn [assoc]. destruct HV as [HV|HV].
      + apply pair_inj in HV as [-> ->]. rewrite Z.eqb_refl. reflexivity.
      + destruct (Z.eqb_spec a (v_num v)) as [->|_]; [|apply IH; assumption]. exfalso. apply N1. apply (in_map fst) in HV. exact HV.
    - intros HV. apply (assoc_In Z.eqb_eq) in HV. apply (in_map snd) in HV. exact HV. }
  assert (HW : forall n v, assoc Z.eqb (m_versions m) n = Some v -> v_num v = n).
  { intros n v HV. apply (assoc_In Z.eqb_eq) in HV. rewrite Forall_forall in W2. apply (W2 _ HV). }
  assert (HL : forall v, In v (meta_versions m) -> exists k, key_at rd (m_type m) v k).
  { intros v HV. clear - F HV. induction F as [|a b vs l R F IH]; [destruct HV|]. destruct HV as [<-|HV]; [exists b; exact R | apply IH, HV]. }
  assert (HK : forall v k, key_at rd (m_type m) v k -> (let* x := rd_key rd (v_num v) in ReadKey (m_type m) x) = Ok k).
  { intros v k (x & h & R1 & R2 & _). rewrite R1. cbn [bind]. exact R2. }
  split.
  - intros n st k. rewrite HR. split.
    + destruct (assoc Z.eqb (m_versions m) n) as [v|] eqn:EA; [|discriminate]. pose proof (HW n v EA) as <-. apply HX in EA.
      destruct (HL v EA) as (k' & K). rewrite (HK v k' K). intros E. apply Some_inj, pair_inj in E as [<- <-].
      exists v. repeat split; assumption.
    + intros (v & HV & <- & <- & K). apply HX in HV. rewrite HV, (HK v k K). reflexivity.
  - intros n. rewrite HR. split.
    + intros E (v & HV & <-). pose proof HV as HV'. apply HX in HV. rewrite HV in E. destruct (HL v HV') as (k' & K). rewrite (HK v k' K) in E. discriminate.
    + intros N. destruct (assoc Z.eqb (m_versions m) n) as [v|] eqn:EA; [|reflexivity]. exfalso. apply N. exists v.
      pose proof (HW n v EA) as <-. split; [apply HX, EA | reflexivity].
Qed.
Print Assumptions C75_contents.

(** An identifier finds the last listed version whose key has it. *)
Lemma hkeys_last l : forall hk h, 
  assoc str_eqb (fold_left add_id l hk) h =
    match find (fun k => match key_hash_id k with Ok h' => str_eqb h' h | Raise _ => false end) (rev l) with
    | Some k => Some k
    | None => assoc str_eqb hk h
    end.
Proof.
  induction l as [|a l IH]; intros hk h; [reflexivity|]. cbn [fold_left rev]. rewrite IH.
  assert (FA : forall {X} (f : X -> bool) l l', find f (l ++ l') = match find f l with Some x => Some x | None => find f l' end).
  { clear. intros X f l l'. induction l as [|x l IH]; [reflexivity|]. cbn. destruct (f x); [reflexivity | exact IH]. }
  rewrite FA. destruct (find _ (rev l)) as [k|]; [reflexivity|]. cbn [find]. unfold add_id.
  destruct (key_hash_id a) as [h'|e]; [|reflexivity]. rewrite (assoc_set _ str_eqb_eq). destruct (str_eqb h' h); reflexivity.
Qed.

Lemma find_last {X} (f : X -> bool) l x : find f (rev l) = Some x <->
  exists pre post, l = pre ++ x :: post /\ f x = true /\ forall y, In y post -> f y = false.
Proof.
  split.
  - induction l as [|a l IH] using rev_ind; [discriminate|]. rewrite rev_app_distr. cbn [rev app find]. destruct (f a) eqn:E.
    + intros H. apply Some_inj in H as <-. exists l, []. repeat split; [assumption | intros y []].
    + intros H. destruct (IH H) as (pre & post & -> & F & G). exists pre, (post ++ [a]). rewrite <- app_assoc. repeat split; [assumption|].
      intros y HY. apply in_app_iff in HY as [HY|[<-|[]]]; [apply G, HY | exact E].
  - intros (pre & post & -> & F & G). induction post as [|a post IH] using rev_ind.
    + rewrite rev_app_distr. cbn. rewrite F. reflexivity.
    + rewrite app_comm_cons, app_assoc, rev_app_distr. cbn [rev app find]. rewrite (G a) by (apply in_or_app; right; left; reflexivity).
      apply IH. intros y HY. apply G, in_or_app. left. exact HY.
Qed.

Theorem C75_identifiers : forall c rd ks m h k, open_keyset c rd = Ok ks -> metadata_for c rd m ->
  GetKey_hash ks h = Ok k <->
  exists pre v post, meta_versions m = pre ++ v :: post /\ key_at rd (m_type m) v k /\ key_hash_id k = Ok h /\
    forall v' k', In v' post -> key_at rd (m_type m) v' k' -> key_hash_id k' <> Ok h.
Proof.
  intros c rd ks m h k H (s & HS & HM & HA & HE).
  destruct (open_ok c rd ks H) as (s' & m' & l & HS' & HM' & _ & _ & F & _ & _ & _ & _ & _ & _ & _ & EH & _).
  rewrite HS in HS'. apply Ok_inj in HS' as <-. rewrite HM in HM'. apply Ok_inj in HM' as <-.
  unfold GetKey_hash. rewrite EH, hkeys_last. cbn [assoc].
  assert (KU : forall v a b, key_at rd (m_type m) v a -> key_at rd (m_type m) v b -> a = b) by (intros v a b (x & g & A1 & A2 & _) (y & g' & B1 & B2 & _); congruence).
  set (f := fun k => match key_hash_id k with Ok h' => str_eqb h' h | Raise _ => false end).
  assert (FE : forall k, f k = true <-> key_hash_id k = Ok h).
  { intros a. unfold f. destruct (key_hash_id a) as [g|e]; [rewrite str_eqb_eq; split; [intros ->; reflexivity | apply Ok_inj] | split; discriminate]. }
  assert (E : find f (rev l) = Some k <-> (match (match find f (rev l) with Some k => Some k | None => None end) with Some k => Ok k | None => Raise (KeyNotFoundError h) end = Ok k)).
  { destruct (find f (rev l)); split; intros X; try discriminate X; [apply Some_inj in X as <-; reflexivity | apply Ok_inj in X as <-; reflexivity]. }
  rewrite <- E, find_last. clear E EH. split.
  - intros (pre & post & -> & HF & HG). apply Forall2_app_inv_r in F as (vp & vr & Fp & Fr & EV). inversion Fr as [|v k0 vr' ? Kv Fr']; subst.
    exists vp, v, vr'. split; [exact EV|]. split; [exact Kv|]. split; [apply FE, HF|]. intros v' k' HI K' C.
    apply In_nth_error in HI as [i HI]. clear - Fr' HG K' C HI KU FE. revert i HI. induction Fr' as [|a b vs l R Fr IH]; intros i HI; [destruct i; discriminate HI|].
    destruct i as [|i].
    + cbn in HI. apply Some_inj in HI as ->. rewrite (KU _ _ _ K' R) in C. apply FE in C. rewrite (HG b (or_introl eq_refl)) in C. discriminate.
    + apply (IH (fun y HY => HG y (or_intror HY)) i HI).
  - intros (pre & v & post & EV & K & HH & HN). rewrite EV in F. apply Forall2_app_inv_l in F as (lp & lr & Fp & Fr & ->).
    inversion Fr as [|? k0 ? lr' Kv Fr']; subst. rewrite (KU _ _ _ K Kv) in *. exists lp, lr'. split; [reflexivity|]. split; [apply FE, HH|].
    intros y HY. apply not_true_iff_false. intros C. apply FE in C. destruct (Forall2_In_r _ _ _ _ Fr' HY) as (v' & HV' & K'). apply (HN v' y HV' K' C).
Qed.
Print Assumptions C75_identifiers.

(** Which error is raised otherwise: that of the first step that fails.  The metadata come first,
    then the class and the mark, then the versions in the order in which they are listed; a second
    primary version is noticed before its key is asked for. *)
Inductive open_error (c : kclass) (rd : reader) : exn -> Prop :=
| ErrNoMetadata e : rd_meta rd = Raise e -> open_error c rd e
| ErrMetadata s e : rd_meta rd = Ok s -> meta_Read s = Raise e -> open_error c rd e
| ErrRefused s m : rd_meta rd = Ok s -> meta_Read s = Ok m ->
    ~ In (m_purpose m) (accepts c) \/ (m_encrypted m = true /\ rd_encrypted rd = false) -> open_error c rd KeyczarError
| ErrVersion m pre v post e : metadata_for c rd m -> meta_versions m = pre ++ v :: post ->
    (forall w, In w pre -> exists k, key_at rd (m_type m) w k) -> one_primary pre ->
    (v_status v = PRIMARY /\ (exists w, In w pre /\ v_status w = PRIMARY) /\ e = KeyczarError \/
     ~ (v_status v = PRIMARY /\ (exists w, In w pre /\ v_status w = PRIMARY)) /\ key_fails rd (m_type m) v e) ->
    open_error c rd e.

Lemma load_keys_fails rd t e : forall vs o p vk hk,
  load_keys rd t o vs p vk hk = Raise e ->
  exists pre v post, vs = pre ++ v :: post /\ (forall w, In w pre -> exists k, key_at rd t w k) /\ one_primary pre /\
    (p <> None -> forall w, In w pre -> v_status w <> PRIMARY) /\
    (v_status v = PRIMARY /\ (p <> None \/ exists w, In w pre /\ v_status w = PRIMARY) /\ e = KeyczarError \/
     ~ (v_status v = PRIMARY /\ (p <> None \/ exists w, In w pre /\ v_status w = PRIMARY)) /\ key_fails rd t v e).
Proof.
  induction vs as [|v vs IH]; intros o p vk hk H; cbn [load_keys] in H; [discriminate|].
  set (g := (if status_eqb (v_status v) PRIMARY then _ else _) : res (option nat)) in H.
  assert (GO : forall e', g = Raise e' -> v_status v = PRIMARY /\ p <> None /\ e' = KeyczarError).
  { unfold g. intros e'. destruct (status_eqb (v_status v) PRIMARY) eqn:ES; [|discriminate]. apply status_eqb_eq in ES.
    destruct p; [|discriminate]. intros E. apply Raise_inj in E as <-. repeat split; [exact ES | discriminate]. }
  assert (GP : forall p', g = Ok p' -> (v_status v = PRIMARY /\ p = None /\ p' = Some o) \/ (v_status v <> PRIMARY /\ p' = p)).
  { unfold g. intros p'. destruct (status_eqb (v_status v) PRIMARY) eqn:ES.
    - apply status_eqb_eq in ES. destruct p; [discriminate|]. intros E. apply Ok_inj in E as <-. left. repeat split. exact ES.
    - intros E. apply Ok_inj in E as <-. right. split; [|reflexivity]. intros C. rewrite C in ES. discriminate. }
  assert (ON : one_primary []) by (intros [|i] j a b E; discriminate E).
  assert (FIRST : forall e', (v_status v = PRIMARY /\ p <> None /\ e' = KeyczarError) \/ ((v_status v = PRIMARY -> p = None) /\ key_fails rd t v e') -> 
    exists pre v0 post, v :: vs = pre ++ v0 :: post /\ (forall w, In w pre -> exists k, key_at rd t w k) /\ one_primary pre /\
    (p <> None -> forall w, In w pre -> v_status w <> PRIMARY) /\
    (v_status v0 = PRIMARY /\ (p <> None \/ exists w, In w pre /\ v_status w = PRIMARY) /\ e' = KeyczarError \/
     ~ (v_status v0 = PRIMARY /\ (p <> None \/ exists w, In w pre /\ v_status w = PRIMARY)) /\ key_fails rd t v0 e')).
  { intros e' X. exists [], v, vs. split; [reflexivity|]. split; [intros w []|]. split; [exact ON|]. split; [intros _ w []|].
    destruct X as [(A & B & C)|(A & B)]; [left; tauto|]. right. split; [|exact B]. intros (C & [D|(w & [] & _)]). apply D, A, C. }
  destruct g as [p'|e'] eqn:EG; cbn [bind] in H; [|apply Raise_inj in H as <-; apply FIRST; left; apply GO; reflexivity].
  specialize (GP p' eq_refl). clear GO.
  assert (PN : v_status v = PRIMARY -> p = None) by (intros C; destruct GP as [(_ & P & _)|(P & _)]; [exact P | contradiction]).
  destruct (rd_key rd (v_num v)) as [s|e1] eqn:E1; cbn [bind] in H; [|apply Raise_inj in H as <-; apply FIRST; right; split; [exact PN | apply FailsReader; exact E1]].
  destruct (ReadKey t s) as [k|e2] eqn:E2; cbn [bind] in H; [|apply Raise_inj in H as <-; apply FIRST; right; split; [exact PN | apply (FailsText _ _ _ s); assumption]].
  destruct (key_hash_id k) as [h|e3] eqn:E3; cbn [bind] in H; [|apply Raise_inj in H as <-; apply FIRST; right; split; [exact PN | apply (FailsId _ _ _ s k); assumption]].
  destruct (IH _ _ _ _ H) as (pre & w & post & -> & HK & HO & HP & HX). exists (v :: pre), w, post. split; [reflexivity|].
  split; [intros x [<-|HX']; [exists k, s, h; repeat split; assumption | apply HK, HX']|].
  assert (HV : v_status v = PRIMARY -> forall x, In x pre -> v_status x <> PRIMARY).
  { intros C. apply HP. destruct GP as [(_ & _ & ->)|(P & _)]; [discriminate | contradiction]. }
  split.
  { intros [|i] [|j] a b A B C D; cbn [nth_error] in *; [reflexivity| | |f_equal; apply (HO i j a b A B C D)].
    - apply Some_inj in A as <-. apply nth_error_In in B. exfalso. apply (HV C b B D).
    - apply Some_inj in B as <-. apply nth_error_In in A. exfalso. apply (HV D a A C). }
  assert (PP : (p' <> None \/ exists x, In x pre /\ v_status x = PRIMARY) <-> (p <> None \/ exists x, In x (v :: pre) /\ v_status x = PRIMARY)).
  { destruct GP as [(P1 & P2 & P3)|(P1 & P2)].
    - split; intros _; [right; exists v; split; [left; reflexivity | exact P1] | left; rewrite P3; discriminate].
    - rewrite P2. split; (intros [A|(x & B & C)]; [left; exact A | right; exists x; split; [|exact C]]).
      + right; exact B.
      + destruct B as [<-|B]; [contradiction | exact B]. }
  split.
  - intros N x [<-|B]; [intros C; apply N, PN, C|]. apply HP; [|exact B]. destruct GP as [(_ & C & _)|(_ & ->)]; [contradiction | exact N].
  - rewrite <- PP. exact HX.
Qed.

Lemma load_keys_prefix rd t rest : forall pre l, Forall2 (key_at rd t) pre l -> forall o p vk hk,
  (p <> None -> forall w, In w pre -> v_status w <> PRIMARY) -> one_primary pre ->
  exists p' vk' hk', load_keys rd t o (pre ++ rest) p vk hk = load_keys rd t (o + length pre) rest p' vk' hk' /\
    (p' <> None <-> p <> None \/ exists w, In w pre /\ v_status w = PRIMARY).
Proof.
  intros pre l F. induction F as [|v k pre l (s & h & E1 & E2 & E3) F IH]; intros o p vk hk H1 H2.
  - exists p, vk, hk. rewrite Nat.add_0_r. split; [reflexivity|]. split; [tauto|]. intros [A|(w & [] & _)]. exact A.
  - cbn [app load_keys length].
    assert (T : one_primary pre) by (intros i j a b A B C D; pose proof (H2 (S i) (S j) a b A B C D); lia).
    destruct (status_eqb (v_status v) PRIMARY) eqn:ES.
    + apply status_eqb_eq in ES. destruct p as [q|]; [exfalso; apply (H1 ltac:(discriminate) v (or_introl eq_refl) ES)|].
      cbn [bind]. rewrite E1. cbn [bind]. rewrite E2. cbn [bind]. rewrite E3. cbn [bind].
      destruct (IH (S o) (Some o) (vk ++ [(o, k)]) (dict_set str_eqb hk h k)) as (p' & vk' & hk' & E & HP); [|exact T|].
      { intros _ w Hw C. apply In_nth_error in Hw as [i Hi]. pose proof (H2 0%nat (S i) v w eq_refl Hi ES C). discriminate. }
      exists p', vk', hk'. rewrite E, Nat.add_succ_comm. split; [reflexivity|]. rewrite HP.
      split; intros _; [right; exists v; split; [left; reflexivity | exact ES] | left; discriminate].
    + cbn [bind]. rewrite E1. cbn [bind]. rewrite E2. cbn [bind]. rewrite E3. cbn [bind].
      destruct (IH (S o) p (vk ++ [(o, k)]) (dict_set str_eqb hk h k)) as (p' & vk' & hk' & E & HP); [|exact T|].
      { intros N w Hw. apply H1; [exact N | right; exact Hw]. }
      exists p', vk', hk'. rewrite E, Nat.add_succ_comm. split; [reflexivity|]. rewrite HP.
      split; (intros [A|(w & B & C)]; [left; exact A | right; exists w; split; [|exact C]]); [right; exact B|].
      destruct B as [<-|B]; [rewrite C in ES; discriminate | exact B].
Qed.

Lemma load_keys_raises rd t o v vs p vk hk e :
  (v_status v = PRIMARY /\ p <> None /\ e = KeyczarError \/ ~ (v_status v = PRIMARY /\ p <> None) /\ key_fails rd t v e) ->
  load_keys rd t o (v :: vs) p vk hk = Raise e.
Proof.
  intros H. cbn [load_keys]. destruct H as [(A & B & ->)|(A & B)].
  - rewrite A. cbn [status_eqb]. destruct p; [reflexivity | contradiction B; reflexivity].
  - assert (G : exists p', (if status_eqb (v_status v) PRIMARY then match p with Some _ => Raise KeyczarError | None => Ok (Some o) end else Ok p) = Ok p').
    { destruct (status_eqb (v_status v) PRIMARY) eqn:ES; [|eexists; reflexivity]. apply status_eqb_eq in ES. destruct p; [|eexists; reflexivity].
      exfalso. apply A. split; [exact ES | discriminate]. }
    destruct G as (p' & ->). cbn [bind]. destruct B as [e E1|s e E1 E2|s k e E1 E2 E3]; rewrite E1; cbn [bind]; [reflexivity| |]; rewrite E2; cbn [bind]; [reflexivity|].
    rewrite E3. reflexivity.
Qed.

(** The error is described completely: it is raised exactly if the description gives it. *)
Theorem C75_error_iff : forall c rd e, open_keyset c rd = Raise e <-> open_error c rd e.
Proof.
  intros c rd e. split.
  - intros H. pose proof H as H0. unfold open_keyset in H.
    destruct (rd_meta rd) as [s|e1] eqn:HS; cbn [bind] in H; [|apply Raise_inj in H as <-; apply ErrNoMetadata; exact HS].
    destruct (meta_Read s) as [m|e2] eqn:HM; cbn [bind] in H; [|apply Raise_inj in H as <-; apply (ErrMetadata _ _ s); assumption].
    destruct (IsAcceptablePurpose c (m_purpose m)) eqn:EA; cbn [negb] in H.
    2:{ apply Raise_inj in H as <-. apply (ErrRefused _ _ s m HS HM). left. intros C. apply accepts_spec in C. congruence. }
    destruct (m_encrypted m && negb (rd_encrypted rd)) eqn:EE.
    { apply Raise_inj in H as <-. apply (ErrRefused _ _ s m HS HM). right. apply andb_true_iff in EE as [E1 E2]. apply negb_true_iff in E2. split; assumption. }
    assert (MF : metadata_for c rd m).
    { exists s. split; [exact HS|]. split; [exact HM|]. split; [apply accepts_spec, EA|]. intros E. rewrite E in EE. destruct (rd_encrypted rd); [reflexivity | discriminate]. }
    clear H. rewrite (open_as c rd m MF) in H0. destruct (load_keys _ _ _ _ _ _ _) as [[[p vk] hk]|e'] eqn:EL; cbn [bind] in H0; [discriminate|].
    apply Raise_inj in H0 as <-. destruct (load_keys_fails _ _ _ _ _ _ _ _ EL) as (pre & v & post & EV & HK & HO & _ & HX).
    apply (ErrVersion c rd m pre v post e' MF EV HK HO). destruct HX as [(A & [B|B] & C)|(A & B)]; [contradiction B; reflexivity | left; tauto | right; split; [|exact B]; intros (D & E); apply A; tauto].
  - intros [e1 H|s e1 H1 H2|s m H1 H2 H3|m pre v post e1 MF EV HK HO HX].
    + unfold open_keyset. rewrite H. reflexivity.
    + unfold open_keyset. rewrite H1. cbn [bind]. rewrite H2. reflexivity.
    + unfold open_keyset. rewrite H1. cbn [bind]. rewrite H2. cbn [bind]. destruct (IsAcceptablePurpose c (m_purpose m)) eqn:EA; [|reflexivity]. cbn [negb].
      destruct H3 as [H3|[-> ->]]; [|reflexivity]. exfalso. apply H3, accepts_spec, EA.
    + rewrite (open_as c rd m MF), EV. destruct (Forall2_all (key_at rd (m_type m)) _ HK) as (l & F).
      destruct (load_keys_prefix rd (m_type m) (v :: post) pre l F 0 None [] [] (fun N => False_ind _ (N eq_refl)) HO) as (p & vk & hk & -> & HP).
      rewrite load_keys_raises with (e := e1); [reflexivity|]. destruct HX as [(A & B & C)|(A & B)].
      * left. repeat split; [exact A | apply HP; right; exact B | exact C].
      * right. split; [|exact B]. intros (C & D). apply A. split; [exact C|]. apply HP in D as [D|D]; [contradiction D; reflexivity | exact D].
Qed.
Print Assumptions C75_error_iff.

(** Opening the set in a directory changes no file, and reads the files [meta], [1], [2] and so on
    of that directory only: the answers of the reader are their contents, and a missing file or
    directory is a KeyczarError. *)
Theorem C75_directory : forall c l f,
  exec (read_location c l) f = (f, if has_dir f l then open_keyset c (file_reader f l) else Raise KeyczarError) /\
  (has_dir f l = false -> forall n, file f l n = None) /\
  (forall s, rd_meta (file_reader f l) = Ok s <-> file f l (bs "meta") = Some s) /\
  (forall n s, rd_key (file_reader f l) n = Ok s <-> file f l (int_to_str n) = Some s) /\
  (forall e, rd_meta (file_reader f l) = Raise e -> e = KeyczarError) /\
  (forall n e, rd_key (file_reader f l) n = Raise e -> e = KeyczarError) /\
  rd_encrypted (file_reader f l) = false.
Proof.
  intros c l f. split; [|split].
  - rewrite exec_read_location. destruct (has_dir f l); [apply (exec_open c l None f) | reflexivity].
  - unfold has_dir, file. destruct (assoc str_eqb f l); [discriminate | reflexivity].
  - unfold file_reader. cbn [rd_meta rd_key rd_encrypted]. unfold meta_file, key_file, answer.
    split; [intros s; destruct (file f l (bs "meta")); split; intros E; try discriminate E; [apply Ok_inj in E as ->; reflexivity | apply Some_inj in E as ->; reflexivity]|].
    split; [intros n s; destruct (file f l (int_to_str n)); split; intros E; try discriminate E; [apply Ok_inj in E as ->; reflexivity | apply Some_inj in E as ->; reflexivity]|].
    split; [intros e; destruct (file f l (bs "meta")); intros E; [discriminate | apply Raise_inj in E as <-; reflexivity]|].
    split; [intros n e; destruct (file f l (int_to_str n)); intros E; [discriminate | apply Raise_inj in E as <-; reflexivity]|]. reflexivity.
Qed.
Print Assumptions C75_directory.

(** The set of /repo/python/testdata/hmac opens for signing and not for decryption; without the file
    of the active version 1 the error of the reader is raised although version 2 is the primary. *)
Example C75_case :
  (exists ks m, open_keyset Signer hmac_reader = Ok ks /\ metadata_for Signer hmac_reader m /\
    meta_versions m = [MkVersion 1 ACTIVE false; MkVersion 2 PRIMARY false]) /\
  open_keyset Crypter hmac_reader = Raise KeyczarError /\
  open_error Signer (MkReader (Ok hmac_meta) (fun n => if n =? 2 then Ok hmac_2 else Raise IOError) false) IOError.
Proof.
  split; [|split; [vm_compute; reflexivity | apply C75_error_iff; vm_compute; reflexivity]].
  destruct (meta_Read hmac_meta) as [m|e] eqn:EM; [|vm_compute in EM; discriminate]. vm_compute in EM. apply Ok_inj in EM as <-.
  eexists. eexists. split; [vm_compute; reflexivity|]. split; [exists hmac_meta; split; [reflexivity|]; split; [vm_compute; reflexivity|]; split; [cbn; tauto | discriminate] | reflexivity].
Qed.
