(** * Props_Mock: keyczart on the in-memory reader does what it does on a directory (C68). *)
From Coq Require Import Strings.String.
From Coq Require Import List ZArith NArith Bool Lia ZifyBool ZifyNat ZifyN.
From Coq.Init Require Import Byte.
From Verif Require Import PyBase PyFacts Base64 Util Json JsonFacts KeyInfo SymKeys AsymKeys Keys KeysFacts KeyData Keyczar KeyRing
  KeyczarFacts Props_Keyset Props_Sign Disk Keyczart DiskFacts CrashFacts Props_Disk Props_Tool Mock.
Import ListNotations.
Local Open Scope Z_scope.
Ltac Zify.zify_post_hook ::= idtac.

(** ** Specification *)

(** The directory [l] holds what the mock holds: the metadata file has the text of the mock's
    metadata, and there is a key file for a number exactly if the mock has a key of that number,
    with the text of that key. *)
Definition same_store (f : disk) (l : str) (m : mock) : Prop :=
  has_dir f l = true /\ (exists s, file f l meta_file = Some s /\ meta_str (mk_kmd m) = Ok s) /\
  forall n, match assoc Z.eqb (mk_keys m) n with
            | Some k => exists s, file f l (key_file n) = Some s /\ key_str k = Ok s
            | None => file f l (key_file n) = None
            end.

(** The command with the mock. *)
Definition mock_cmd (m : mock) (c : kcmd) : mock * res unit :=
  match c with
  | CmdAddKey s size ds => mock_AddKeyCmd m s None size ds
  | CmdPromote n => mock_Change Promote m n
  | CmdDemote n => mock_Change Demote m n
  | CmdRevoke n => mock_Revoke m n
  end.

(** A list of commands: what they leave, and how each of them ended. *)
Fixpoint mock_all (m : mock) (cs : list kcmd) : mock * list (res unit) :=
  match cs with
  | [] => (m, [])
  | c :: cs' => let '(m1, r) := mock_cmd m c in let '(m2, rs) := mock_all m1 cs' in (m2, r :: rs)
  end.
Fixpoint disk_all (l : str) (f : disk) (cs : list (kcmd * (nat -> env))) : disk * list (res unit) :=
  match cs with
  | [] => (f, [])
  | (c, es) :: cs' => let '(f1, r) := exec (kcmd_prog l c es) f in let '(f2, rs) := disk_all l f1 cs' in (f2, r :: rs)
  end.

(** ** Proofs *)

Lemma load_same rd rd' t vs : (forall n, rd_key rd' n = rd_key rd n) -> forall o p vk hk, load_keys rd' t o vs p vk hk = load_keys rd t o vs p vk hk.
Proof.
  intros E. induction vs as [|v vs IH]; intros o p vk hk; cbn [load_keys]; [reflexivity|].
  destruct (if status_eqb (v_status v) PRIMARY then _ else _); cbn [bind]; [|reflexivity]. rewrite E.
  destruct (rd_key rd (v_num v)); cbn [bind]; [|reflexivity]. destruct (ReadKey t _); cbn [bind]; [|reflexivity]. destruct (key_hash_id _); cbn [bind]; [|reflexivity]. apply IH.
Qed.

Lemma open_same c rd rd' : rd_meta rd' = rd_meta rd -> (forall n, rd_key rd' n = rd_key rd n) -> rd_encrypted rd' = rd_encrypted rd -> open_keyset c rd' = open_keyset c rd.
Proof.
  intros E1 E2 E3. unfold open_keyset. rewrite E1. destruct (rd_meta rd); cbn [bind]; [|reflexivity]. destruct (meta_Read _); cbn [bind]; [|reflexivity].
  rewrite E3, (load_same rd rd' _ _ E2). reflexivity.
Qed.

(** Every class of key set opens from the mock exactly as it does from the directory. *)
Theorem C68_same_sets : forall f l m c, same_store f l m -> open_keyset c (mock_reader m) = snd (exec (open_files c l None) f).
Proof.
  intros f l m c (_ & (s & E1 & E2) & E3). rewrite exec_open. cbn [snd]. apply open_same; cbn [disk_reader mock_reader file_reader rd_meta rd_key rd_encrypted].
  - rewrite E1, E2. reflexivity.
  - intros n. specialize (E3 n). destruct (assoc Z.eqb (mk_keys m) n) as [k|]; [destruct E3 as (t & -> & ->) | rewrite E3]; reflexivity.
  - reflexivity.
Qed.
Print Assumptions C68_same_sets.

Lemma set_keys_kmd objs vk : forall m, mk_kmd (set_keys_mock m objs vk) = mk_kmd m.
Proof. induction vk as [|[o k] vk IH]; intros m; cbn [set_keys_mock]; [reflexivity|]. rewrite IH. reflexivity. Qed.

Lemma set_keys_other objs vk : forall m n, (forall p, In p vk -> num_of objs p <> n) -> assoc Z.eqb (mk_keys (set_keys_mock m objs vk)) n = assoc Z.eqb (mk_keys m) n.
Proof.
  induction vk as [|[o k] vk IH]; intros m n H; cbn [set_keys_mock]; [reflexivity|]. rewrite IH by (intros p Hp; apply H; right; exact Hp).
  cbn [SetKey mk_keys]. rewrite (assoc_set Z.eqb Z.eqb_eq). assert (E : (v_num (deref objs o) =? n) = false) by (apply Z.eqb_neq; apply (H (o, k)); left; reflexivity). rewrite E. reflexivity.
Qed.

Lemma set_keys_this objs vk : forall m p, NoDup (map (num_of objs) vk) -> In p vk -> assoc Z.eqb (mk_keys (set_keys_mock m objs vk)) (num_of objs p) = Some (snd p).
Proof.
  induction vk as [|[o k] vk IH]; intros m p ND HI; [contradiction HI|]. cbn [set_keys_mock map] in *. apply NoDup_cons_iff in ND as [N1 N2]. destruct HI as [<-|HI]; [|apply IH; assumption].
  rewrite set_keys_other.
  - cbn [SetKey mk_keys snd]. rewrite (assoc_set Z.eqb Z.eqb_eq). unfold num_of. cbn [fst]. rewrite Z.eqb_refl. reflexivity.
  - intros q Hq E. apply N1. rewrite <- E. apply in_map, Hq.
Qed.

Lemma num_dec objs (vk : list (nat * key)) n : (exists p, In p vk /\ num_of objs p = n) \/ forall p, In p vk -> num_of objs p <> n.
Proof.
  induction vk as [|q vk IH]; [right; intros p []|]. destruct (Z.eq_dec (num_of objs q) n) as [E|E]; [left; exists q; split; [left; reflexivity | exact E]|].
  destruct IH as [(p & H1 & H2)|H]; [left; exists p; split; [right; exact H1 | exact H2]|]. right. intros p [<-|Hp]; [exact E | apply H, Hp].
Qed.

Lemma update_same f l m ks es g : same_store f l m -> inv ks -> ks_encrypted ks = false -> exec (WriteSet ks l None es) f = (g, Ok tt) ->
  same_store g l (mock_update m ks).
Proof.
  intros (HD & _ & HK) I HE HW. destruct (WriteSet_spec _ _ _ _ _ _ _ I HW) as (_ & S2 & S3 & S4 & _ & S6). split; [rewrite S3; exact HD|]. split.
  - eexists. split; [apply (S2 HD)|]. unfold mock_update. rewrite set_keys_kmd. cbn [set_kmd mk_kmd]. rewrite meta_str_eq. unfold written, set_encrypted, ks_meta. cbn. rewrite HE. reflexivity.
  - intros n. unfold mock_update. destruct (num_dec (ks_objs ks) (ks_vkeys ks) n) as [(p & HP & <-)|H].
    + rewrite (set_keys_this _ _ _ p (nums_NoDup ks I) HP). destruct (S6 eq_refl p HP) as (e & s & ES & EF). exists s. split; [exact EF|]. unfold stored in ES. destruct (key_str (snd p)) as [s1|]; cbn [bind] in ES; [exact ES | discriminate ES].
    + rewrite (set_keys_other _ _ _ _ H). cbn [set_kmd mk_keys]. rewrite (S4 l (key_file n)); [apply HK|]. right. split; [apply key_file_meta|].
      intros p HP E. apply key_file_inj in E. apply (H p HP). congruence.
Qed.

(** One command: it ends in the same way, with the same exception if it fails, and leaves the same. *)
Theorem C68_command : forall f l m c es g r, same_store f l m -> kcmd_ok c -> exec (kcmd_prog l c es) f = (g, r) ->
  snd (mock_cmd m c) = r /\ same_store g l (fst (mock_cmd m c)).
Proof.
  intros f l m c es g r HS HC HX. pose proof (C68_same_sets f l m GenericKeyczar HS) as EO. rewrite exec_open in EO. cbn [snd] in EO. fold (mock_generic m) in EO.
  pose proof HS as (HD & _ & HK). destruct (mock_generic m) as [ks|e] eqn:EG; symmetry in EO.
  2:{ assert (EF : r = Raise e /\ g = f).
      { destruct c as [s size ds|n|n|n]; cbn [kcmd_prog] in HX; unfold RevokeCmd, PromoteCmd, DemoteCmd, AddKeyCmd, ChangeCmd in HX; rewrite ?exec_bind, exec_generic, HD, EO in HX; apply pair_inj in HX as [<- <-]; split; reflexivity. }
      destruct EF as [-> ->]. destruct c as [s size ds|n|n|n]; cbn [mock_cmd]; unfold mock_Revoke, mock_Change, mock_AddKeyCmd; rewrite EG; split; try reflexivity; exact HS. }
  assert (EN : ks_encrypted ks = false).
  { pose proof EO as E. apply open_ok in E as (s & m0 & ls & _ & _ & _ & E4 & _ & _ & _ & _ & E5 & _). rewrite E5. destruct (m_encrypted m0); [discriminate (E4 eq_refl) | reflexivity]. }
  assert (HL : loadable f l ks) by (unfold loadable; rewrite exec_open, EO; reflexivity).
  pose proof (made_open _ _ _ EO) as M. pose proof (made_inv _ M) as I.
  assert (W : forall o ks' es, draws_ok o -> step ks o = (ks', Ok tt) -> exists g1, exec (WriteSet ks' l None es) f = (g1, Ok tt) /\ same_store g1 l (mock_update m ks')).
  { intros o ks' es0 Ho ES. assert (M' : made ks') by (replace ks' with (fst (step ks o)) by (rewrite ES; reflexivity); rewrite step_run; apply made_run; [exact M | constructor; [exact Ho | constructor]]).
    destruct (WriteSet_total ks' l es0 f HD (made_wf _ M')) as (g1 & HW). exists g1. split; [exact HW|]. apply (update_same f l m ks' es0 g1 HS (made_inv _ M')); [|exact HW].
    destruct (name_step ks o I) as (_ & _ & _ & E). rewrite ES in E. cbn [fst] in E. congruence. }
  assert (CH : forall (change : keyset -> Z -> keyset * res unit) (mk : Z -> op) n g r, (forall n, draws_ok (mk n)) -> (forall n, step ks (mk n) = change ks n) ->
     exec (ChangeCmd change (Some l) n es) f = (g, r) -> snd (mock_Change change m n) = r /\ same_store g l (fst (mock_Change change m n)) /\
       (r = Ok tt -> 0 <= n /\ exists ks', change ks n = (ks', Ok tt) /\ fst (mock_Change change m n) = mock_update m ks')).
  { intros change mk n g0 r0 Hmk Hst HX0. rewrite (exec_change _ _ _ _ _ _ HL) in HX0. unfold mock_Change. rewrite EG. destruct (n <? 0) eqn:EL.
    { apply pair_inj in HX0 as [<- <-]. split; [reflexivity|]. split; [exact HS | discriminate]. }
    destruct (change ks n) as [ks' [[]|e]] eqn:EC.
    - destruct (W (mk n) ks' es (Hmk n)) as (g1 & HW & SS); [rewrite Hst; exact EC|]. rewrite HW in HX0. apply pair_inj in HX0 as [<- <-]. split; [reflexivity|]. split; [exact SS|].
      intros _. split; [lia|]. exists ks'. split; reflexivity.
    - apply pair_inj in HX0 as [<- <-]. split; [reflexivity|]. split; [exact HS | discriminate]. }
  destruct c as [s size ds|n|n|n]; cbn [kcmd_prog mock_cmd] in *.
  - rewrite (exec_add l None s size ds es f ks EO) in HX. unfold mock_AddKeyCmd. rewrite EG. destruct (AddVersion ks ds s _) as [ks' [[]|e]] eqn:EA.
    + destruct (W (OpAdd ds s (if size =? -1 then None else Some size)) ks' es HC EA) as (g1 & HW & SS). rewrite HW in HX. apply pair_inj in HX as [<- <-]. split; [reflexivity | exact SS].
    + apply pair_inj in HX as [<- <-]. split; [reflexivity | exact HS].
  - destruct (CH Promote OpPromote n g r) as (A & B & _); [intros; exact Logic.I | reflexivity | exact HX | split; assumption].
  - destruct (CH Demote OpDemote n g r) as (A & B & _); [intros; exact Logic.I | reflexivity | exact HX | split; assumption].
  - unfold RevokeCmd in HX. rewrite exec_bind in HX. destruct (exec (ChangeCmd Revoke (Some l) n es) f) as [g1 r1] eqn:E1.
    destruct (CH Revoke OpRevoke n g1 r1) as (A & B & C); [intros; exact Logic.I | reflexivity | exact E1|]. unfold mock_Revoke. destruct (mock_Change Revoke m n) as [m1 r1'] eqn:EM. cbn [fst snd] in *. subst r1'.
    destruct r1 as [[]|e]; [|apply pair_inj in HX as [<- <-]; split; [reflexivity | exact B]].
    destruct (C eq_refl) as (HN & ks' & ER & ->). destruct B as (HD1 & BM & BK).
    assert (HF : exists k, assoc Z.eqb (mk_keys (mock_update m ks')) n = Some k).
    { unfold Revoke in ER. destruct (GetVersion ks n) as [o|] eqn:EV; [|discriminate]. unfold GetVersion in EV. destruct (assoc Z.eqb (ks_mvers ks) n) as [o'|] eqn:EA; [|discriminate]. apply Ok_inj in EV as ->.
      destruct (v_status _); try discriminate. apply pair_inj in ER as [<- _]. destruct (inv_mvers ks I n o (assoc_In Z.eqb_eq EA)) as [IV NV].
      unfold ks_versions in IV. apply in_map_iff in IV as ([o1 k] & E0 & HI). cbn [fst] in E0. subst o1. exists k. unfold mock_update. cbn [set_mvers ks_objs ks_vkeys].
      pose proof (set_keys_this (ks_objs ks) (ks_vkeys ks) (set_kmd m (ks_meta (set_mvers ks (dict_pop Z.eqb (ks_mvers ks) n)))) (o, k) (nums_NoDup ks I) HI) as T. unfold num_of in T. cbn [fst snd] in T. rewrite NV in T. exact T. }
    destruct HF as (k & HF). pose proof (BK n) as BN. rewrite HF in BN. destruct BN as (s & BN & _).
    unfold CreateWriter, first_accepting, FileWriter_CreateWriter in HX. cbn [pbind exec] in HX. rewrite HD1 in HX. cbn [pbind exec RemoveKey] in HX. rewrite BN in HX. apply pair_inj in HX as [<- <-].
    unfold mock_RemoveKey. rewrite HF. cbn [fst snd]. split; [reflexivity|]. split; [rewrite has_dir_del; exact HD1|]. cbn [mk_kmd mk_keys]. split.
    + destruct BM as (s0 & B1 & B2). exists s0. split; [|exact B2]. rewrite file_del, str_eqb_refl, key_meta_eqb. exact B1.
    + intros n0. rewrite (assoc_pop Z.eqb Z.eqb_eq), file_del, str_eqb_refl, key_file_eqb. cbn [andb]. destruct (n =? n0) eqn:E; [reflexivity | apply BK].
Qed.
Print Assumptions C68_command.

(** Any number of commands, starting with [create]: a new directory and a new mock, or any other
    mock without keys. *)
Theorem C68_create : forall f l m name p a g r, has_dir f l = true -> file f l meta_file = None -> (forall n, file f l (key_file n) = None) -> mk_keys m = [] ->
  exec (Create (Some l) name p a) f = (g, r) ->
  snd (mock_Create m name p a) = r /\ (r = Ok tt -> same_store g l (fst (mock_Create m name p a))).
Proof.
  intros f l m name p a g r HD HM HK EK HX. unfold Create, pure in HX. unfold mock_Create. destruct (create_type p a) as [[q t]|e]; cbn [pbind] in HX.
  2:{ apply pair_inj in HX as [<- <-]. split; [reflexivity | discriminate]. }
  rewrite exec_bind, (proj2 (C58_factories f l)), HD in HX. unfold WriteMetadata, pure in HX. cbn [exec] in HX. rewrite HM, meta_str_eq in HX. cbn [pbind] in HX.
  match type of HX with context[exec (WriteFile ?s _ _) _] => destruct (WriteFile_ok f s l meta_file HD) as (g1 & E1 & S1) end. rewrite E1 in HX. apply pair_inj in HX as [<- <-]. split; [reflexivity|]. intros _.
  cbn [fst]. split; [rewrite (proj1 S1); exact HD|]. split.
  - eexists. split; [apply (set_to_this _ _ _ _ _ S1)|]. cbn [set_kmd mk_kmd]. apply meta_str_eq.
  - intros n. cbn [set_kmd mk_keys]. rewrite EK. cbn [assoc]. rewrite (set_to_other _ _ _ _ _ _ _ S1); [apply HK | right; apply key_file_meta].
Qed.
Print Assumptions C68_create.

Theorem C68_histories : forall cs f l m, same_store f l m -> Forall (fun x => kcmd_ok (fst x)) cs ->
  snd (mock_all m (map fst cs)) = snd (disk_all l f cs) /\ same_store (fst (disk_all l f cs)) l (fst (mock_all m (map fst cs))).
Proof.
  induction cs as [|[c es] cs IH]; intros f l m HS HC; [split; [reflexivity | exact HS]|]. apply Forall_cons_iff in HC as [HC1 HC2]. cbn [map mock_all disk_all fst] in *.
  destruct (exec (kcmd_prog l c es) f) as [f1 r] eqn:EX. destruct (C68_command f l m c es f1 r HS HC1 EX) as [E1 S1]. destruct (mock_cmd m c) as [m1 r1]. cbn [fst snd] in E1, S1. subst r1.
  destruct (IH f1 l m1 S1 HC2) as [E2 S2]. destruct (disk_all l f1 cs) as [f2 rs]. destruct (mock_all m1 (map fst cs)) as [m2 rs']. cbn [fst snd] in *. split; [f_equal; exact E2 | exact S2].
Qed.
Print Assumptions C68_histories.

(** pubkey: it ends in the same way; the mock's public metadata and keys are what is written to the
    destination, and nothing else of the mock changes. *)
Lemma mock_export_spec objs : forall vk m kmd,
  NoDup (map fst (m_versions kmd) ++ map (num_of objs) vk) -> Forall (fun p => exists pub, public_key (snd p) = Ok pub) vk ->
  exists m', mock_export m objs vk kmd =
    (m', Ok (MkMeta (m_name kmd) (m_purpose kmd) (m_type kmd) (m_encrypted kmd) (m_versions kmd ++ map (fun p => (num_of objs p, deref objs (fst p))) vk))) /\
    mk_kmd m' = mk_kmd m /\ mk_keys m' = mk_keys m /\
    (forall n, (forall p, In p vk -> num_of objs p <> n) -> assoc Z.eqb (mk_pubkeys m') n = assoc Z.eqb (mk_pubkeys m) n) /\
    (forall p, In p vk -> exists pub, public_key (snd p) = Ok pub /\ assoc Z.eqb (mk_pubkeys m') (num_of objs p) = Some pub).
Proof.
  induction vk as [|[o k] vk IH]; intros m kmd ND F; cbn [mock_export].
  - exists m. cbn [map]. rewrite app_nil_r. destruct kmd. repeat split. intros p [].
  - apply Forall_cons_iff in F as [(pub & EP) F]. cbn [snd] in EP. rewrite EP. cbn [map] in ND.
    assert (N : assoc Z.eqb (m_versions kmd) (v_num (deref objs o)) = None).
    { destruct (assoc Z.eqb (m_versions kmd) (v_num (deref objs o))) as [v|] eqn:E; [|reflexivity]. exfalso.
      apply NoDup_remove_2 in ND. apply ND, in_or_app. left. apply (assoc_In Z.eqb_eq), (in_map fst) in E. exact E. }
    unfold meta_AddVersion. rewrite N. cbn [fst].
    destruct (IH (SetPubKey m (v_num (deref objs o)) pub) (MkMeta (m_name kmd) (m_purpose kmd) (m_type kmd) (m_encrypted kmd) (m_versions kmd ++ [(v_num (deref objs o), deref objs o)]))) as (m' & E1 & E2 & E3 & E4 & E5).
    + cbn [m_versions]. rewrite map_app, <- app_assoc. exact ND.
    + exact F.
    + exists m'. cbn [m_name m_purpose m_type m_encrypted m_versions map] in *. rewrite <- app_assoc in E1. split; [exact E1|]. split; [exact E2|]. split; [exact E3|]. split.
      * intros n H. rewrite E4 by (intros p Hp; apply H; right; exact Hp). cbn [SetPubKey mk_pubkeys]. rewrite (assoc_set Z.eqb Z.eqb_eq).
        assert (X : (v_num (deref objs o) =? n) = false) by (apply Z.eqb_neq; apply (H (o, k)); left; reflexivity). rewrite X. reflexivity.
      * intros p [<-|Hp]; [|apply E5, Hp]. exists pub. split; [exact EP|]. rewrite E4.
        -- cbn [SetPubKey mk_pubkeys]. rewrite (assoc_set Z.eqb Z.eqb_eq). unfold num_of. cbn [fst]. rewrite Z.eqb_refl. reflexivity.
        -- intros q Hq E. apply NoDup_remove_2 in ND. apply ND, in_or_app. right. change (v_num (deref objs o)) with (num_of objs (o, k)). rewrite <- E. apply in_map, Hq.
Qed.

Theorem C68_pubkey : forall f l d m g r, same_store f l m -> has_dir f d = true -> exec (PubKeyCmd (Some l) (Some d)) f = (g, r) ->
  let m' := fst (mock_PubKey m) in
  snd (mock_PubKey m) = r /\ mk_kmd m' = mk_kmd m /\ mk_keys m' = mk_keys m /\
  (r = Ok tt -> exists ks kmd s, loadable f l ks /\ mk_pubkmd m' = Some kmd /\ meta_str kmd = Ok s /\ file g d meta_file = Some s /\
     forall n st k, ring_of ks n = Some (st, k) -> exists pub s, public_key k = Ok pub /\ assoc Z.eqb (mk_pubkeys m') n = Some pub /\
       key_str pub = Ok s /\ file g d (key_file n) = Some s) /\
  (forall e, r = Raise e -> g = f /\ m' = m).
Proof.
  intros f l d m g r HS HDd HX. pose proof (C68_same_sets f l m GenericKeyczar HS) as EO. rewrite exec_open in EO. cbn [snd] in EO. fold (mock_generic m) in EO.
  pose proof HS as (HD & _ & HK). cbn [PubKeyCmd] in HX. rewrite exec_bind, exec_generic, HD in HX. rewrite <- EO in HX. unfold mock_PubKey. destruct (mock_generic m) as [ks|e]; symmetry in EO.
  2:{ apply pair_inj in HX as [<- <-]. cbn [fst snd]. split; [reflexivity|]. split; [reflexivity|]. split; [reflexivity|]. split; [discriminate | intros e0 _; split; reflexivity]. }
  pose proof (made_open _ _ _ EO) as M. pose proof (made_inv _ M) as I. pose proof (made_wf _ M) as W. unfold PublicKeyExport, pure in HX.
  destruct (public_meta ks) as [[pp pt]|e] eqn:EPM; cbn [pbind] in HX.
  2:{ apply pair_inj in HX as [<- <-]. cbn [fst snd]. split; [reflexivity|]. split; [reflexivity|]. split; [reflexivity|]. split; [discriminate | intros e0 _; split; reflexivity]. }
  assert (EX : exported_as (ks_type ks) (ks_purpose ks) = Some (pt, pp)).
  { unfold public_meta in EPM. destruct (ks_type ks), (ks_purpose ks); try discriminate; apply Ok_inj, pair_inj in EPM as [<- <-]; reflexivity. }
  assert (PH : forall o k, In (o, k) (ks_vkeys ks) -> exists pub s, public_key k = Ok pub /\ key_str pub = Ok s).
  { intros o k HI. destruct (public_half k (ks_type ks) (ks_purpose ks) pt pp) as (pub & s & P1 & _ & _ & _ & P2); [apply (proj1 (Forall_forall _ _) W (o, k) HI) | apply (inv_type ks I o k HI) | exact EX|].
    exists pub, s. split; assumption. }
  destruct (export_keys_spec d (ks_objs ks) (ks_vkeys ks) (MkMeta (ks_name ks) pp pt false []) f HDd (nums_NoDup ks I)) as (g1 & E1 & A & B & C).
  { apply Forall_forall. intros [o k] HI. apply (PH o k HI). }
  destruct (mock_export_spec (ks_objs ks) (ks_vkeys ks) m (MkMeta (ks_name ks) pp pt false []) (nums_NoDup ks I)) as (m' & F1 & F2 & F3 & _ & F5).
  { apply Forall_forall. intros [o k] HI. destruct (PH o k HI) as (pub & s & P & _). exists pub. exact P. }
  cbn [m_name m_purpose m_type m_encrypted m_versions app] in E1, F1. rewrite F1. rewrite exec_bind, E1, meta_str_eq in HX. cbn [pbind] in HX.
  set (kmd := MkMeta (ks_name ks) pp pt false (map (fun p => (num_of (ks_objs ks) p, deref (ks_objs ks) (fst p))) (ks_vkeys ks))) in *.
  assert (HD1 : has_dir g1 d = true) by (rewrite A; exact HDd).
  destruct (WriteFile_ok g1 (dumps (meta_json kmd (map version_json (meta_versions kmd)))) d meta_file HD1) as (g2 & EG & SG). rewrite EG in HX. apply pair_inj in HX as [<- <-].
  cbn [fst snd mk_kmd mk_keys mk_pubkmd mk_pubkeys]. split; [reflexivity|]. split; [exact F2|]. split; [exact F3|]. split; [|discriminate].
  intros _. exists ks, kmd, (dumps (meta_json kmd (map version_json (meta_versions kmd)))). split; [unfold loadable; rewrite exec_open, EO; reflexivity|]. split; [reflexivity|].
  split; [apply meta_str_eq|]. split; [apply (set_to_this _ _ _ _ _ SG)|]. intros n st k HR.
  destruct (ring_entry ks n st k I HR) as (o & A1 & A2 & _ & _). apply (assoc_In Z.eqb_eq) in A1. apply (assoc_In Nat.eqb_eq) in A2. destruct (inv_mvers ks I n o A1) as [_ NV].
  destruct (F5 (o, k) A2) as (pub & P1 & P2). destruct (C (o, k) A2) as (pub' & s & P3 & P4 & P5). unfold num_of in P2, P5. cbn [fst snd] in *. rewrite NV in P2, P5.
  assert (pub' = pub) as -> by congruence. exists pub, s. split; [exact P1|]. split; [exact P2|]. split; [exact P4|]. rewrite (set_to_other _ _ _ _ _ _ _ SG); [exact P5 | right; apply key_file_meta].
Qed.
Print Assumptions C68_pubkey.

(** ** What the mock answers *)

(** The mocks a test can make: new ones, with keys added through the mock or through keyczart. *)
Definition draw_ok (d : draw) : Prop := rsa_nonneg (d_rsa d) /\ dsa_nonneg (d_dsa d).
Inductive mock_made : mock -> Prop :=
| MadeNew name p t e : text_ok name -> mock_made (MockReader name p t e)
| MadeKey m d n s size m' b : mock_made m -> draw_ok d -> mock_AddKey m d n s size = Ok (m', b) -> mock_made m'
| MadeCreate m name p a : mock_made m -> text_ok name -> mock_made (fst (mock_Create m name p a))
| MadeCmd m c : mock_made m -> kcmd_ok c -> mock_made (fst (mock_cmd m c))
| MadePub m : mock_made m -> mock_made (fst (mock_PubKey m)).

Definition mock_wf (m : mock) : Prop := meta_wf (mk_kmd m) /\ text_ok (m_name (mk_kmd m)) /\ Forall (fun p => key_wf (snd p)) (mk_keys m) /\
  forall n v k, assoc Z.eqb (m_versions (mk_kmd m)) n = Some v -> assoc Z.eqb (mk_keys m) n = Some k -> key_type k = m_type (mk_kmd m).

Lemma dict_set_Forall {A B} (eqb : A -> A -> bool) (P : A * B -> Prop) l k v : (forall k', P (k', v)) -> Forall P l -> Forall P (dict_set eqb l k v).
Proof.
  intros HP F. induction F as [|[k' v'] l H F IH]; cbn [dict_set]; [repeat constructor; apply HP|]. destruct (eqb k' k); constructor; auto.
Qed.

Lemma set_keys_wf objs vk : forall m, Forall (fun p => key_wf (snd p)) vk -> Forall (fun p => key_wf (snd p)) (mk_keys m) -> Forall (fun p => key_wf (snd p)) (mk_keys (set_keys_mock m objs vk)).
Proof.
  induction vk as [|[o k] vk IH]; intros m F1 F2; cbn [set_keys_mock]; [exact F2|]. apply Forall_cons_iff in F1 as [F1 F3]. apply IH; [exact F3|].
  cbn [SetKey mk_keys]. apply dict_set_Forall; [intros k'; exact F1 | exact F2].
Qed.

Lemma mock_meta_read m : mock_wf m -> exists s, meta_str (mk_kmd m) = Ok s /\ meta_Read s = Ok (mk_kmd m).
Proof. intros (W & N & _). eexists. split; [apply meta_str_eq|]. apply (meta_rt _ _ W N), meta_str_eq. Qed.

Lemma mock_wf_update m ks o ks' : mock_wf m -> mock_generic m = Ok ks -> draws_ok o -> step ks o = (ks', Ok tt) -> mock_wf (mock_update m ks').
Proof.
  intros HW HG Ho ES. unfold mock_generic in HG. pose proof (made_open _ _ _ HG) as M. pose proof (made_inv _ M) as I.
  assert (M' : made ks') by (replace ks' with (fst (step ks o)) by (rewrite ES; reflexivity); rewrite step_run; apply made_run; [exact M | constructor; [exact Ho | constructor]]).
  unfold mock_wf, mock_update. rewrite set_keys_kmd. cbn [set_kmd mk_kmd]. split; [apply ks_meta_wf, made_inv, M'|]. split.
  - destruct (name_step ks o I) as (E & _). rewrite ES in E. cbn [fst] in E. cbn [ks_meta m_name]. rewrite E. destruct (mock_meta_read m HW) as (s & E1 & E2).
    apply open_ok in HG as (s' & m0 & ls & H1 & H2 & _ & _ & _ & -> & _). cbn [mock_reader rd_meta] in H1. assert (s' = s) as -> by congruence. assert (m0 = mk_kmd m) as -> by congruence. apply HW.
  - cbn [ks_meta m_versions m_type]. split; [apply set_keys_wf; [exact (made_wf _ M') | apply HW]|]. intros n v k HV HK. pose proof (made_inv _ M') as I'.
    apply (assoc_In Z.eqb_eq), in_map_iff in HV as ([n' o'] & E & HI). cbn [fst snd] in E. apply pair_inj in E as [-> _]. destruct (inv_mvers ks' I' n o' HI) as [IV NV].
    unfold ks_versions in IV. apply in_map_iff in IV as ([o1 k1] & E0 & H1). cbn [fst] in E0. subst o1.
    pose proof (set_keys_this (ks_objs ks') (ks_vkeys ks') (set_kmd m (ks_meta ks')) (o', k1) (nums_NoDup ks' I') H1) as T. unfold num_of in T. cbn [fst snd] in T. rewrite NV in T.
    unfold mock_update in HK. cbn [ks_meta] in HK, T. rewrite T in HK. apply Some_inj in HK as <-. apply (inv_type ks' I' o' k1 H1).
Qed.

Lemma mock_made_wf m : mock_made m -> mock_wf m.
Proof.
  induction 1 as [name p t e HN|m d n s size m' b _ IH HD HA|m name p a _ IH HN|m c _ IH HC|m _ IH].
  - split; [split; constructor|]. split; [exact HN|]. split; [constructor | intros n v k C; discriminate C].
  - unfold mock_AddKey in HA. apply bind_Ok in HA as (k & HK & HA). destruct (meta_AddVersion _ _) as [kmd b0] eqn:EA. apply Ok_inj, pair_inj in HA as [<- _].
    destruct IH as (W & N & F & T). assert (EK : kmd = fst (meta_AddVersion (mk_kmd m) (MkVersion n s false))) by (rewrite EA; reflexivity).
    assert (EN : m_name kmd = m_name (mk_kmd m) /\ m_type kmd = m_type (mk_kmd m)) by (rewrite EK; unfold meta_AddVersion; destruct (assoc _ _ _); split; reflexivity).
    split; [|split; [|split]].
    + cbn [set_kmd mk_kmd]. rewrite EK. apply meta_AddVersion_wf, W.
    + cbn [set_kmd mk_kmd]. rewrite (proj1 EN). exact N.
    + cbn [set_kmd SetKey mk_keys]. apply dict_set_Forall; [|exact F]. intros k'. cbn [snd]. apply (GenKey_wf _ _ _ _ HK); intros _; apply HD.
    + cbn [set_kmd SetKey mk_keys mk_kmd]. intros n' v k' HV HK'. rewrite (proj2 EN). rewrite (assoc_set Z.eqb Z.eqb_eq) in HK'. destruct (n =? n') eqn:E.
      * apply Some_inj in HK' as <-. apply (GenKey_type _ _ _ _ HK).
      * assert (HV' : exists v', assoc Z.eqb (m_versions (mk_kmd m)) n' = Some v').
        { rewrite EK in HV. unfold meta_AddVersion in HV. cbn [v_num] in HV. destruct (assoc Z.eqb (m_versions (mk_kmd m)) n) eqn:EN'; [exists v; exact HV|]. cbn [fst m_versions] in HV.
          rewrite assoc_app in HV. destruct (assoc Z.eqb (m_versions (mk_kmd m)) n') as [v'|]; [exists v'; reflexivity|]. cbn [assoc] in HV. rewrite E in HV. discriminate. }
        destruct HV' as (v' & HV'). apply (T n' v' k' HV' HK').
  - unfold mock_Create. destruct (create_type p a) as [[q t]|e]; [|exact IH]. destruct IH as (W & N & F & _). split; [split; constructor|]. split; [exact HN|]. split; [exact F | intros n v k C; discriminate C].
  - assert (CH : forall (change : keyset -> Z -> keyset * res unit) (mk : Z -> op) n, (forall n, draws_ok (mk n)) -> (forall ks n, step ks (mk n) = change ks n) -> mock_wf (fst (mock_Change change m n))).
    { intros change mk n Hmk Hst. unfold mock_Change. destruct (mock_generic m) as [ks|e] eqn:EG; [|exact IH]. destruct (n <? 0); [exact IH|].
      destruct (change ks n) as [ks' [[]|e]] eqn:EC; [|exact IH]. apply (mock_wf_update m ks (mk n) ks' IH EG (Hmk n)). rewrite Hst. exact EC. }
    destruct c as [s size ds|n|n|n]; cbn [mock_cmd].
    + unfold mock_AddKeyCmd. destruct (mock_generic m) as [ks|e] eqn:EG; [|exact IH]. destruct (AddVersion ks ds s _) as [ks' [[]|e]] eqn:EA; [|exact IH].
      apply (mock_wf_update m ks (OpAdd ds s (if size =? -1 then None else Some size)) ks' IH EG HC EA).
    + apply (CH Promote OpPromote); [intros; exact Logic.I | reflexivity].
    + apply (CH Demote OpDemote); [intros; exact Logic.I | reflexivity].
    + pose proof (CH Revoke OpRevoke n (fun _ => Logic.I) (fun _ _ => eq_refl)) as HR. unfold mock_Revoke. destruct (mock_Change Revoke m n) as [m1 [[]|e]]; [|exact HR]. cbn [fst] in HR.
      unfold mock_RemoveKey. destruct (assoc Z.eqb (mk_keys m1) n); [|exact HR]. destruct HR as (W & N & F & T). split; [exact W|]. split; [exact N|]. cbn [fst mk_keys mk_kmd].
      split; [|intros n' v k' HV HK; rewrite (assoc_pop Z.eqb Z.eqb_eq) in HK; destruct (n =? n'); [discriminate | apply (T n' v k' HV HK)]].
      unfold dict_pop. apply Forall_forall. intros x Hx. apply filter_In in Hx as [Hx _]. apply (proj1 (Forall_forall _ _) F x Hx).
  - unfold mock_PubKey. destruct (mock_generic m) as [ks|e]; [|exact IH]. destruct (public_meta ks) as [[p t]|e]; [|exact IH].
    assert (G : forall objs vk m0 kmd, mock_wf m0 -> mock_wf (fst (mock_export m0 objs vk kmd))).
    { intros objs. induction vk as [|[o k] vk IHv]; intros m0 kmd H0; cbn [mock_export]; [exact H0|]. destruct (public_key k); [|exact H0]. apply IHv, H0. }
    pose proof (G (ks_objs ks) (ks_vkeys ks) m (MkMeta (ks_name ks) p t false []) IH) as HG. destruct (mock_export _ _ _ _) as [m1 [kmd|e]]; exact HG.
Qed.

(** For every such mock whose set opens, [GetStatus], [ExistsVersion], [GetKeySize] and, after pubkey,
    [HasPubKey] say what is true of the set. *)
Theorem C68_queries : forall m ks, mock_made m -> open_keyset GenericKeyczar (mock_reader m) = Ok ks ->
  (forall n s, mock_GetStatus m n = Ok s <-> exists k, ring_of ks n = Some (s, k)) /\
  (forall n s k, ring_of ks n = Some (s, k) -> ExistsVersion m n = true /\ GetKeySize m n = Ok (key_size k)) /\
  (forall m', mock_PubKey m = (m', Ok tt) -> forall n s k, ring_of ks n = Some (s, k) -> HasPubKey m' n = Ok true).
Proof.
  intros m ks HM HO. pose proof (mock_made_wf m HM) as HW. destruct (mock_meta_read m HW) as (s & E1 & E2).
  assert (EM : rd_meta (mock_reader m) = Ok s) by exact E1. pose proof (open_ring _ _ _ _ _ HO EM E2) as OR. pose proof (inv_open _ _ _ HO) as I.
  assert (EMV : forall n v, assoc Z.eqb (m_versions (mk_kmd m)) n = Some v -> exists k, ring_of ks n = Some (v_status v, k) /\ assoc Z.eqb (mk_keys m) n = Some k).
  { intros n v HV. assert (HT : exists x, rd_key (mock_reader m) n = Ok x).
    { assert (HI : exists o, In (n, o) (ks_mvers ks)).
      { pose proof HO as HO'. apply open_ok in HO' as (s' & m0 & ls & H1 & H2 & _ & _ & _ & _ & _ & _ & _ & _ & EV & _). rewrite EM in H1. apply Ok_inj in H1 as <-. rewrite E2 in H2. apply Ok_inj in H2 as <-.
        apply (assoc_In Z.eqb_eq), (in_map fst) in HV. cbn [fst] in HV. rewrite EV. unfold meta_versions. rewrite map_length.
        clear -HV. rewrite <- (map_length fst). generalize 0%nat. induction (map fst (m_versions (mk_kmd m))) as [|a q IH]; intros i; [contradiction HV|]. destruct HV as [->|HV]; [exists i; left; reflexivity|].
        destruct (IH HV (S i)) as (o & Ho). exists o. right. exact Ho. }
      destruct HI as (o & HI). apply (opened_meta _ _ _ HO n o HI). }
    specialize (OR n). rewrite HV in OR. destruct HT as (x & HT). rewrite HT in OR. cbn [bind] in OR. cbn [mock_reader rd_key] in HT.
    destruct (assoc Z.eqb (mk_keys m) n) as [k0|] eqn:EK; [|discriminate]. destruct HW as (W & N & F & T). pose proof (proj1 (Forall_forall _ _) F (n, k0) (assoc_In Z.eqb_eq EK)) as WK. cbn [snd] in WK.
    rewrite (key_str_eq k0 WK) in HT. apply Ok_inj in HT as <-. rewrite <- (T n v k0 HV EK), (key_rt k0 WK) in OR. exists k0. split; [exact OR | reflexivity]. }
  assert (K : forall n st k, ring_of ks n = Some (st, k) -> assoc Z.eqb (mk_keys m) n = Some k).
  { intros n st k HR. pose proof HR as HR'. rewrite OR in HR'. destruct (assoc Z.eqb (m_versions (mk_kmd m)) n) as [v|] eqn:EV; [|discriminate]. destruct (EMV n v EV) as (k0 & R0 & K0). congruence. }
  split; [|split].
  - intros n st. unfold mock_GetStatus. split.
    + destruct (assoc Z.eqb (m_versions (mk_kmd m)) n) as [v|] eqn:EV; [|discriminate]. intros E. apply Ok_inj in E as <-. destruct (EMV n v EV) as (k & HR & _). exists k. exact HR.
    + intros (k & HR). rewrite OR in HR. destruct (assoc Z.eqb (m_versions (mk_kmd m)) n) as [v|]; [|discriminate]. destruct (bind _ _); [|discriminate]. apply Some_inj, pair_inj in HR as [<- _]. reflexivity.
  - intros n st k HR. unfold ExistsVersion, GetKeySize. rewrite (K n st k HR). split; reflexivity.
  - intros m' HP n st k HR. unfold mock_PubKey, mock_generic in HP. rewrite HO in HP. destruct (public_meta ks) as [[pp pt]|e] eqn:EPM; [|discriminate].
    pose proof (made_wf _ (made_open _ _ _ HO)) as W.
    assert (EX : exported_as (ks_type ks) (ks_purpose ks) = Some (pt, pp)).
    { unfold public_meta in EPM. destruct (ks_type ks), (ks_purpose ks); try discriminate; apply Ok_inj, pair_inj in EPM as [<- <-]; reflexivity. }
    destruct (mock_export_spec (ks_objs ks) (ks_vkeys ks) m (MkMeta (ks_name ks) pp pt false []) (nums_NoDup ks I)) as (m1 & F1 & F2 & F3 & _ & F5).
    { apply Forall_forall. intros [o q] HI. destruct (public_half q (ks_type ks) (ks_purpose ks) pt pp) as (pub & x & P1 & _); [apply (proj1 (Forall_forall _ _) W (o, q) HI) | apply (inv_type ks I o q HI) | exact EX|]. exists pub. exact P1. }
    rewrite F1 in HP. apply pair_inj in HP as [<- _]. destruct (ring_entry ks n st k I HR) as (o & A1 & A2 & _ & _). apply (assoc_In Z.eqb_eq) in A1. apply (assoc_In Nat.eqb_eq) in A2. destruct (inv_mvers ks I n o A1) as [_ NV].
    destruct (F5 (o, k) A2) as (pub & P1 & P2). unfold num_of in P2. cbn [fst snd] in P1, P2. rewrite NV in P2. unfold HasPubKey. cbn [mk_keys mk_pubkeys]. rewrite F3, (K n st k HR), P2, P1. cbn [bind]. f_equal.
    unfold key_eq. rewrite Z.eqb_refl. destruct (key_type pub); destruct (key_string pub); cbn; rewrite ?text_eqb_refl; reflexivity.
Qed.
Print Assumptions C68_queries.

(** REFUTED, that [HasPubKey] recognises the public half: any public key of the same type and size will
    do, because the keys are compared by [==] (C60). *)
Theorem C68_has_pub_key_refuted : forall m n k pub pub', assoc Z.eqb (mk_keys m) n = Some k -> public_key k = Ok pub ->
  key_type pub' = key_type pub -> key_size pub' = key_size pub -> key_string pub = None -> key_string pub' = None ->
  HasPubKey (SetPubKey m n pub') n = Ok true.
Proof.
  intros m n k pub pub' HK HP E1 E2 E3 E4. unfold HasPubKey. cbn [SetPubKey mk_keys mk_pubkeys]. rewrite HK, (assoc_set Z.eqb Z.eqb_eq), Z.eqb_refl, HP. cbn [bind]. f_equal.
  unfold key_eq. rewrite E1, E2, E3, E4, Z.eqb_refl. destruct (key_type pub); reflexivity.
Qed.
Print Assumptions C68_has_pub_key_refuted.

(** REFUTED, that all commands agree: create replaces the metadata of a mock that has a set, and a
    crypter is ignored, so that a test with the mock cannot see what --crypter does. *)
Theorem C68_create_again_refuted : forall f l m name p a t, same_store f l m -> implied p a t ->
  snd (mock_Create m name (Some p) a) = Ok tt /\ mk_kmd (fst (mock_Create m name (Some p) a)) = MkMeta name p t false [] /\
  exec (Create (Some l) name (Some p) a) f = (f, Raise KeyczarError).
Proof.
  intros f l m name p a t (HD & (s & HM & _) & _) HI. pose proof (implied_type p a t HI) as ET. unfold mock_Create. rewrite ET. split; [reflexivity|]. split; [reflexivity|].
  unfold Create, pure. rewrite ET. cbn [pbind]. rewrite exec_bind, (proj2 (C58_factories f l)), HD. unfold WriteMetadata. cbn [exec]. rewrite HM. reflexivity.
Qed.
Print Assumptions C68_create_again_refuted.

Theorem C68_crypter_ignored_refuted : forall f l m s cr size ds es g, same_store f l m -> text_ok (m_name (mk_kmd m)) -> meta_wf (mk_kmd m) -> m_encrypted (mk_kmd m) = false -> draws_ok (OpAdd ds s None) ->
  exec (AddKeyCmd (Some l) s (Some cr) size ds es) f = (g, Ok tt) ->
  mock_AddKeyCmd m s (Some cr) size ds = mock_AddKeyCmd m s None size ds /\ ~ same_store g l (fst (mock_AddKeyCmd m s (Some cr) size ds)).
Proof.
  intros f l m s cr size ds es g HS HN HW HE HC HX. split; [reflexivity|]. intros (_ & (t & E1 & E2) & _).
  pose proof HS as (HD & (t0 & M1 & M2) & _). assert (RT : meta_Read t0 = Ok (mk_kmd m)) by (apply (meta_rt _ _ HW HN M2)).
  unfold AddKeyCmd in HX. rewrite exec_bind, exec_generic, HD in HX. destruct (open_keyset GenericKeyczar (disk_reader f l (Some cr))) as [ks|e] eqn:EO; [|apply pair_inj in HX as [_ HX]; discriminate].
  pose proof (made_open _ _ _ EO) as M. pose proof (made_inv _ M) as I.
  destruct (AddVersion ks ds s _) as [ks' [[]|e]] eqn:EA; [|apply pair_inj in HX as [_ HX]; discriminate]. cbn [pure pbind] in HX. rewrite (exec_update _ _ _ _ _ HD) in HX.
  set (o := OpAdd ds s (if size =? -1 then None else Some size)). assert (ES : step ks o = (ks', Ok tt)) by exact EA. assert (Ho : draws_ok o) by exact HC.
  assert (M' : made ks') by (replace ks' with (fst (step ks o)) by (rewrite ES; reflexivity); rewrite step_run; apply made_run; [exact M | constructor; [exact Ho | constructor]]).
  destruct (WriteSet_spec _ _ _ _ _ _ _ (made_inv _ M') HX) as (_ & S2 & _). specialize (S2 HD). rewrite E1 in S2. apply Some_inj in S2.
  assert (NM : ks_name ks' = m_name (mk_kmd m)).
  { destruct (name_step ks o I) as (A & _). rewrite ES in A. cbn [fst] in A. rewrite A. apply open_ok in EO as (s' & m0 & ls & H1 & H2 & _ & _ & _ & -> & _). cbn [disk_reader EncryptedReader rd_meta file_reader] in H1.
    rewrite M1 in H1. apply Ok_inj in H1 as <-. congruence. }
  assert (RT' : meta_Read t = Ok (ks_meta (written ks' (Some cr)))).
  { rewrite S2. apply (meta_rt (ks_meta (written ks' (Some cr)))); [destruct (ks_meta_wf ks' (made_inv _ M')) as [X1 X2]; split; [exact X1 | exact X2] | cbn; rewrite NM; exact HN | exact (meta_str_eq (ks_meta (written ks' (Some cr))))]. }
  unfold mock_AddKeyCmd in E2. destruct (mock_generic m) as [ks0|e0] eqn:EG.
  2:{ cbn [fst] in E2. pose proof (meta_rt _ _ HW HN E2) as R. assert (X : m_encrypted (mk_kmd m) = true) by (assert (Y : mk_kmd m = ks_meta (written ks' (Some cr))) by congruence; rewrite Y; reflexivity). congruence. }
  unfold mock_generic in EG. assert (NE : ks_name ks0 = m_name (mk_kmd m) /\ ks_encrypted ks0 = false).
  { apply open_ok in EG as (s' & m0 & ls & H1 & H2 & _ & _ & _ & -> & _ & _ & -> & _). cbn [mock_reader rd_meta] in H1. rewrite M2 in H1. apply Ok_inj in H1 as <-. assert (m0 = mk_kmd m) as -> by congruence. split; [reflexivity | exact HE]. }
  pose proof (made_open _ _ _ EG) as M0. pose proof (made_inv _ M0) as I0.
  destruct (AddVersion ks0 ds s _) as [ks1 [[]|e0]] eqn:EA0.
  2:{ cbn [fst] in E2. pose proof (meta_rt _ _ HW HN E2) as R. assert (X : m_encrypted (mk_kmd m) = true) by (assert (Y : mk_kmd m = ks_meta (written ks' (Some cr))) by congruence; rewrite Y; reflexivity). congruence. }
  assert (ES0 : step ks0 o = (ks1, Ok tt)) by exact EA0.
  assert (M1' : made ks1) by (replace ks1 with (fst (step ks0 o)) by (rewrite ES0; reflexivity); rewrite step_run; apply made_run; [exact M0 | constructor; [exact Ho | constructor]]).
  cbn [fst] in E2. unfold mock_update in E2. rewrite set_keys_kmd in E2. cbn [set_kmd mk_kmd] in E2.
  destruct (name_step ks0 o I0) as (A & _ & _ & B). rewrite ES0 in A, B. cbn [fst] in A, B.
  assert (R : meta_Read t = Ok (ks_meta ks1)) by (apply (meta_rt _ _ (ks_meta_wf ks1 (made_inv _ M1'))); [cbn; rewrite A, (proj1 NE); exact HN | exact E2]).
  assert (Y : ks_meta ks1 = ks_meta (written ks' (Some cr))) by congruence. apply (f_equal m_encrypted) in Y. cbn in Y. rewrite B, (proj2 NE) in Y. discriminate Y.
Qed.
Print Assumptions C68_crypter_ignored_refuted.

(** A new directory and a new mock, with two keys added, one of them revoked, and a refused command;
    and a mock with a DSA key that is exported. *)
Definition mock_new : mock := MockReader (tx "Test") SIGN_AND_VERIFY HMAC_SHA1 false.
Definition mock_case : list (kcmd * (nat -> env)) :=
  [(CmdAddKey PRIMARY (-1) [zero_draw x01], one_env); (CmdAddKey PRIMARY 256 [zero_draw x01; zero_draw x02], one_env);
   (CmdRevoke 1, one_env); (CmdDemote 1, one_env); (CmdRevoke 1, one_env)].
Example C68_case : has_dir test_disk (bs "/new") = true /\ file test_disk (bs "/new") meta_file = None /\ (forall n, file test_disk (bs "/new") (key_file n) = None) /\
  mk_keys mock_new = [] /\ Forall (fun x => kcmd_ok (fst x)) mock_case /\
  (let '(m, r) := mock_Create mock_new (tx "n") (Some SIGN_AND_VERIFY) None in let '(m', rs) := mock_all m (map fst mock_case) in
   r = Ok tt /\ rs = [Ok tt; Ok tt; Raise KeyczarError; Ok tt; Ok tt] /\ map fst (mk_keys m') = [2] /\ mock_made m') /\
  (let '(m, r) := mock_Create mock_new (tx "n") (Some SIGN_AND_VERIFY) (Some (bs "dsa")) in let '(m1, rs) := mock_all m [CmdAddKey PRIMARY (-1) [zero_draw x01]] in
   let '(m2, r2) := mock_PubKey m1 in rs = [Ok tt] /\ r2 = Ok tt /\ mock_made m2 /\ exists ks k pub, open_keyset GenericKeyczar (mock_reader m1) = Ok ks /\
     ring_of ks 1 = Some (PRIMARY, k) /\ public_key k = Ok pub /\ key_string pub = None /\ HasPubKey m2 1 = Ok true).
Proof.
  split; [reflexivity|]. split; [reflexivity|]. split; [intros n; reflexivity|]. split; [reflexivity|].
  assert (OK : Forall (fun x => kcmd_ok (fst x)) mock_case) by (repeat (apply Forall_cons || apply Forall_nil); cbn; repeat constructor; cbn; lia).
  assert (MA : forall cs m, mock_made m -> Forall (fun x => kcmd_ok (fst x)) cs -> mock_made (fst (mock_all m (map (@fst kcmd (nat -> env)) cs)))).
  { induction cs as [|[c es] cs IH]; intros m HM HC; [exact HM|]. apply Forall_cons_iff in HC as [H1 H2]. cbn [map mock_all fst] in *. pose proof (MadeCmd m c HM H1) as H3. destruct (mock_cmd m c) as [m1 r]. cbn [fst] in H3.
    pose proof (IH m1 H3 H2) as H4. destruct (mock_all m1 (map fst cs)) as [m2 rs]. exact H4. }
  assert (MN : mock_made mock_new) by (apply MadeNew, tx_ok).
  split; [exact OK|]. split.
  - pose proof (MadeCreate mock_new (tx "n") (Some SIGN_AND_VERIFY) None MN (tx_ok "n")) as M1. destruct (mock_Create mock_new (tx "n") (Some SIGN_AND_VERIFY) None) as [m r] eqn:EC. cbn [fst] in M1.
    pose proof (MA mock_case m M1 OK) as M2. destruct (mock_all m (map fst mock_case)) as [m' rs] eqn:EA. cbn [fst] in M2.
    assert (E : fst (mock_Create mock_new (tx "n") (Some SIGN_AND_VERIFY) None) = m) by (rewrite EC; reflexivity). vm_compute in EC. apply pair_inj in EC as [<- <-]. vm_compute in EA. apply pair_inj in EA as [<- <-].
    split; [reflexivity|]. split; [reflexivity|]. split; [reflexivity | exact M2].
  - pose proof (MadeCreate mock_new (tx "n") (Some SIGN_AND_VERIFY) (Some (bs "dsa")) MN (tx_ok "n")) as M1. destruct (mock_Create mock_new (tx "n") (Some SIGN_AND_VERIFY) (Some (bs "dsa"))) as [m r] eqn:EC. cbn [fst] in M1.
    assert (OK1 : Forall (fun x => kcmd_ok (fst x)) [(CmdAddKey PRIMARY (-1) [zero_draw x01], one_env)]) by (repeat (apply Forall_cons || apply Forall_nil); cbn; repeat constructor; cbn; lia).
    pose proof (MA _ m M1 OK1) as M2. cbn [map fst] in M2. destruct (mock_all m [CmdAddKey PRIMARY (-1) [zero_draw x01]]) as [m1 rs] eqn:EA. cbn [fst] in M2. pose proof (MadePub m1 M2) as M3.
    destruct (mock_PubKey m1) as [m2 r2] eqn:EP. cbn [fst] in M3. vm_compute in EC. apply pair_inj in EC as [<- <-]. vm_compute in EA. apply pair_inj in EA as [<- <-]. vm_compute in EP. apply pair_inj in EP as [<- <-].
    split; [reflexivity|]. split; [reflexivity|]. split; [exact M3|]. eexists _, _, _. split; [vm_compute; reflexivity|]. split; [vm_compute; reflexivity|]. split; [vm_compute; reflexivity|]. split; [reflexivity | vm_compute; reflexivity].
Qed.
