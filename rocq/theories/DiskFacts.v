(** * DiskFacts: lemmas about disks, programs and metadata files. *)
From Coq Require Import Strings.String.
From Coq Require Import List ZArith NArith Bool Lia ZifyBool ZifyNat ZifyN.
From Coq.Init Require Import Byte.
From Verif Require Import PyBase PyFacts Base64 Base64Facts Util Json JsonFacts KeyInfo SymKeys AsymKeys Keys KeysFacts
  KeyData Keyczar KeyRing KeyczarFacts Disk Keyczart.
Import ListNotations.
Local Open Scope Z_scope.
Ltac Zify.zify_post_hook ::= idtac.

(** ** Lookups *)

Lemma str_eqb_refl s : str_eqb s s = true.
Proof. apply str_eqb_eq. reflexivity. Qed.

Lemma str_eqb_neq s t : s <> t -> str_eqb s t = false.
Proof. apply (eqb_neq str_eqb str_eqb_eq). Qed.

Lemma has_dir_set f l n c l' : has_dir (set_file f l n c) l' = has_dir f l'.
Proof.
  unfold has_dir, set_file. destruct (assoc str_eqb f l) as [d|] eqn:E; [|reflexivity].
  rewrite (assoc_set str_eqb str_eqb_eq). destruct (str_eqb l l') eqn:EL; [|reflexivity]. apply str_eqb_eq in EL as <-. rewrite E. reflexivity.
Qed.

Lemma has_dir_del f l n l' : has_dir (del_file f l n) l' = has_dir f l'.
Proof.
  unfold has_dir, del_file. destruct (assoc str_eqb f l) as [d|] eqn:E; [|reflexivity].
  rewrite (assoc_set str_eqb str_eqb_eq). destruct (str_eqb l l') eqn:EL; [|reflexivity]. apply str_eqb_eq in EL as <-. rewrite E. reflexivity.
Qed.

Lemma file_set f l n c l' n' : has_dir f l = true ->
  file (set_file f l n c) l' n' = if str_eqb l l' && str_eqb n n' then Some c else file f l' n'.
Proof.
  unfold has_dir, file, set_file. destruct (assoc str_eqb f l) as [d|] eqn:E; [|discriminate]. intros _.
  rewrite (assoc_set str_eqb str_eqb_eq). destruct (str_eqb l l') eqn:EL; cbn [andb]; [|reflexivity].
  apply str_eqb_eq in EL as <-. rewrite (assoc_set str_eqb str_eqb_eq), E. destruct (str_eqb n n'); reflexivity.
Qed.

Lemma file_del f l n l' n' :
  file (del_file f l n) l' n' = if str_eqb l l' && str_eqb n n' then None else file f l' n'.
Proof.
  unfold file, del_file. destruct (assoc str_eqb f l) as [d|] eqn:E.
  - rewrite (assoc_set str_eqb str_eqb_eq). destruct (str_eqb l l') eqn:EL; cbn [andb]; [|reflexivity].
    apply str_eqb_eq in EL as <-. rewrite (assoc_pop str_eqb str_eqb_eq), E. destruct (str_eqb n n'); reflexivity.
  - destruct (str_eqb l l') eqn:EL; cbn [andb]; [|reflexivity]. apply str_eqb_eq in EL as <-. rewrite E. destruct (str_eqb n n'); reflexivity.
Qed.

Lemma has_dir_put f l n d l' : has_dir (put f l n d) l' = has_dir f l'.
Proof. unfold put. destruct (file f l n); [apply has_dir_set | reflexivity]. Qed.

Lemma has_dir_file f l n c : file f l n = Some c -> has_dir f l = true.
Proof. unfold file, has_dir. destruct (assoc str_eqb f l); [reflexivity | discriminate]. Qed.

Lemma file_put f l n d l' n' : file (put f l n d) l' n' =
  if str_eqb l l' && str_eqb n n' then match file f l n with Some old => Some (d ++ skipn (length d) old) | None => None end else file f l' n'.
Proof.
  unfold put. destruct (file f l n) as [old|] eqn:E.
  - rewrite file_set by apply (has_dir_file _ _ _ _ E). reflexivity.
  - destruct (str_eqb l l' && str_eqb n n') eqn:EB; [|reflexivity]. apply andb_true_iff in EB as [EL EN].
    apply str_eqb_eq in EL as <-. apply str_eqb_eq in EN as <-. exact E.
Qed.

(** Two disks with the same directories and files. *)
Definition same_disk (f g : disk) : Prop := (forall l, has_dir f l = has_dir g l) /\ forall l n, file f l n = file g l n.

(** [g] is [f] with other contents in some file: what one [WriteFile] does. *)
Definition set_to (f g : disk) (l n c : str) : Prop :=
  (forall l', has_dir g l' = has_dir f l') /\
  forall l' n', file g l' n' = if str_eqb l l' && str_eqb n n' then Some c else file f l' n'.

(** ** Running programs *)

Lemma exec_bind {A B} (p : prog A) (k : A -> prog B) : forall f,
  exec (pbind p k) f = let '(f', r) := exec p f in match r with Ok a => exec (k a) f' | Raise e => (f', Raise e) end.
Proof.
  induction p as [r|l n h IH|l h IH|l n h IH|l n h IH|l n d h IH|l n h IH|l h IH]; intros f; cbn [pbind exec]; try apply IH.
  - destruct r; reflexivity.
  - destruct (has_dir f l); apply IH.
  - destruct (file f l n); apply IH.
Qed.

Lemma exec_pure {A} (r : res A) f : exec (pure r) f = (f, r).
Proof. reflexivity. Qed.

Lemma WriteFile_ok f d l n : has_dir f l = true ->
  exists g, exec (WriteFile d l n) f = (g, Ok tt) /\ set_to f g l n d.
Proof.
  intros H. unfold WriteFile. cbn [exec]. rewrite H. cbn [exec]. eexists. split; [reflexivity|]. split.
  - intros l'. rewrite has_dir_put. apply has_dir_set.
  - intros l' n'. rewrite file_put, file_set by exact H. rewrite !str_eqb_refl. cbn [andb]. rewrite skipn_nil, app_nil_r.
    rewrite file_set by exact H. destruct (str_eqb l l' && str_eqb n n'); reflexivity.
Qed.

Lemma WriteFile_fail f d l n : has_dir f l = false -> exec (WriteFile d l n) f = (f, Raise KeyczarError).
Proof. intros H. unfold WriteFile. cbn [exec]. rewrite H. reflexivity. Qed.

(** ** Reading a key set is what [open_keyset] says *)

(** A reader that answers with the files of the disk. *)
Definition answer (o : option str) : res str := match o with Some s => Ok s | None => Raise KeyczarError end.
Definition file_reader (f : disk) (l : str) : reader :=
  MkReader (answer (file f l meta_file)) (fun n => answer (file f l (key_file n))) false.
Definition disk_reader (f : disk) (l : str) (crypter : option keyset) : reader :=
  match crypter with None => file_reader f l | Some c => EncryptedReader (file_reader f l) c end.

Lemma exec_GetKey f l cr n : exec (GetKey l cr n) f = (f, rd_key (disk_reader f l cr) n).
Proof.
  unfold GetKey, ReadFile. cbn [pbind exec]. destruct (file f l (key_file n)) as [s|] eqn:E; cbn [pbind];
    destruct cr; cbn [disk_reader file_reader EncryptedReader rd_key]; rewrite E; reflexivity.
Qed.

Lemma exec_load f l cr t : forall vs o p vk hk,
  exec (load_files l cr t o vs p vk hk) f = (f, load_keys (disk_reader f l cr) t o vs p vk hk).
Proof.
  induction vs as [|v vs IH]; intros o p vk hk; cbn [load_files load_keys]; [reflexivity|].
  rewrite exec_bind.
  assert (E : forall r : res (option nat), exec (match r with Ok a => Done (Ok a) | Raise e => Done (Raise e) end) f = (f, r)) by (intros [|]; reflexivity).
  destruct (status_eqb (v_status v) PRIMARY); [destruct p as [q|]|]; cbn [exec bind]; try reflexivity.
  all: rewrite exec_bind, exec_GetKey; destruct (rd_key (disk_reader f l cr) (v_num v)) as [s|e]; cbn [bind]; [|reflexivity];
    unfold pure; cbn [pbind]; destruct (ReadKey t s) as [k|e]; cbn [bind]; [|reflexivity];
    destruct (key_hash_id k) as [h|e]; cbn [bind]; [apply IH | reflexivity].
Qed.

Lemma exec_open c l cr f : exec (open_files c l cr) f = (f, open_keyset c (disk_reader f l cr)).
Proof.
  unfold open_files, GetMetadata, ReadFile, open_keyset. rewrite exec_bind. cbn [exec].
  assert (EM : rd_meta (disk_reader f l cr) = answer (file f l meta_file)) by (destruct cr; reflexivity). rewrite EM.
  destruct (file f l meta_file) as [s|]; cbn [answer exec bind]; [|reflexivity].
  unfold pure. cbn [pbind]. destruct (meta_Read s) as [m|e]; cbn [bind]; [|reflexivity].
  destruct (negb _); [reflexivity|].
  assert (EE : rd_encrypted (disk_reader f l cr) = match cr with Some _ => true | None => false end) by (destruct cr; reflexivity). rewrite EE.
  destruct (m_encrypted m && _); [reflexivity|]. rewrite exec_bind, exec_load.
  destruct (load_keys _ _ _ _ _ _ _) as [[[p vk] hk]|e]; reflexivity.
Qed.

(** ** File names *)

Lemma int_to_str_inj n m : int_to_str n = int_to_str m -> n = m.
Proof.
  intros H. pose proof (parse_number_ok n [] I) as A. pose proof (parse_number_ok m [] I) as B. rewrite H in A. rewrite A in B.
  apply Ok_inj, pair_inj in B as [B _]. injection B as B. exact B.
Qed.

Lemma key_file_inj n m : key_file n = key_file m -> n = m.
Proof. apply int_to_str_inj. Qed.

Lemma key_file_meta n : key_file n <> meta_file.
Proof.
  destruct (num_first n) as (c & r & E & H). unfold key_file. rewrite E. intros C.
  assert (HC : c = "m"%byte) by (unfold meta_file in C; cbn in C; congruence). subst c. vm_compute in H. destruct H as [H|[H1 H2]]; [discriminate H | exfalso; apply H2; reflexivity].
Qed.

Lemma key_file_eqb n m : str_eqb (key_file n) (key_file m) = (n =? m).
Proof.
  destruct (Z.eqb_spec n m) as [->|H]; [apply str_eqb_refl|]. apply str_eqb_neq. intros C. apply H, key_file_inj, C.
Qed.

Lemma meta_key_eqb n : str_eqb meta_file (key_file n) = false.
Proof. apply str_eqb_neq. intros C. apply (key_file_meta n). congruence. Qed.
Lemma key_meta_eqb n : str_eqb (key_file n) meta_file = false.
Proof. apply str_eqb_neq, key_file_meta. Qed.

(** ** Metadata files *)

Lemma version_json_ok v : json_ok (version_json v).
Proof. unfold version_json. apply jobj_ok. repeat constructor; cbn [snd json_ok]; try exact I. apply tx_ok. Qed.

Lemma GetStatus_name s : GetStatus (tx (status_name s)) = Ok s.
Proof. destruct s; reflexivity. Qed.
Lemma GetPurpose_name p : GetPurpose (tx (purpose_name p)) = Ok p.
Proof. destruct p; reflexivity. Qed.
Lemma GetType_name t : GetType (tx (type_name t)) = Ok t.
Proof. destruct t; reflexivity. Qed.

Lemma version_rt v : version_read (version_json v) = Ok v.
Proof.
  unfold version_read. change (get_int (version_json v) "versionNumber") with (Ok (v_num v)). cbn [bind].
  change (get_str (version_json v) "status") with (Ok (tx (status_name (v_status v)))). cbn [bind]. rewrite GetStatus_name. cbn [bind].
  change (get_bool (version_json v) "exportable") with (Ok (v_export v)). cbn [bind]. destruct v. reflexivity.
Qed.

Lemma mapM_Ok_map {A B} (f : A -> res B) (g : A -> B) l : (forall a, f a = Ok (g a)) -> mapM f l = Ok (map g l).
Proof. intros H. induction l as [|a l IH]; cbn [mapM map]; [reflexivity|]. rewrite H. cbn [bind]. rewrite IH. reflexivity. Qed.

Lemma meta_str_eq m : meta_str m = Ok (dumps (meta_json m (map version_json (meta_versions m)))).
Proof.
  unfold meta_str. rewrite (mapM_Ok_map _ version_json) by (intros v; apply loads_dumps, version_json_ok). reflexivity.
Qed.

Lemma meta_json_ok m vs : text_ok (m_name m) -> Forall json_ok vs -> json_ok (meta_json m vs).
Proof.
  intros H F. unfold meta_json. apply jobj_ok. repeat constructor; cbn [snd]; try exact I.
  - exact H.
  - cbn [json_ok]. apply tx_ok.
  - cbn [json_ok]. apply tx_ok.
  - apply json_ok_arr. exact F.
Qed.

Lemma add_versions_rt n p t e : forall vs acc, NoDup (map fst (acc ++ vs)) -> Forall (fun p => v_num (snd p) = fst p) vs ->
  add_versions (MkMeta n p t e acc) (map version_json (map snd vs)) = Ok (MkMeta n p t e (acc ++ vs)).
Proof.
  induction vs as [|[a v] vs IH]; intros acc ND F; cbn [map add_versions]; [rewrite app_nil_r; reflexivity|].
  cbn [snd]. rewrite version_rt. cbn [bind]. pose proof (Forall_inv F) as E. cbn [fst snd] in E.
  unfold meta_AddVersion. cbn [m_versions m_name m_purpose m_type m_encrypted].
  assert (N : assoc Z.eqb acc (v_num v) = None).
  { apply (assoc_None Z.eqb_eq). rewrite E. rewrite map_app in ND. cbn [map fst] in ND. apply NoDup_remove_2 in ND. intros C. apply ND, in_or_app. left. exact C. }
  rewrite N. cbn [fst]. rewrite E. rewrite IH; [rewrite <- app_assoc; reflexivity | rewrite <- app_assoc; exact ND | apply (Forall_inv_tail F)].
Qed.

Lemma meta_rt m s : meta_wf m -> text_ok (m_name m) -> meta_str m = Ok s -> meta_Read s = Ok m.
Proof.
  intros [W1 W2] HN H. rewrite meta_str_eq in H. apply Ok_inj in H as <-. unfold meta_Read.
  rewrite loads_dumps by (apply meta_json_ok; [exact HN|]; apply Forall_map, Forall_forall; intros v _; apply version_json_ok). cbn [bind].
  set (j := meta_json m _). change (get_str j "name") with (Ok (m_name m)). cbn [bind].
  change (get_str j "purpose") with (Ok (tx (purpose_name (m_purpose m)))). cbn [bind]. rewrite GetPurpose_name. cbn [bind].
  change (get_str j "type") with (Ok (tx (type_name (m_type m)))). cbn [bind]. rewrite GetType_name. cbn [bind].
  change (get_bool j "encrypted") with (Ok (m_encrypted m)). cbn [bind].
  change (get_arr j "versions") with (Ok (map version_json (meta_versions m))). cbn [bind].
  unfold meta_versions. rewrite add_versions_rt by assumption. destruct m. reflexivity.
Qed.

(** ** Writing a key set *)

(** What [WriteKey] puts into the file. *)
Definition stored (encrypter : option keyset) (e : env) (k : key) : res str :=
  let* s := key_str k in
  match encrypter with None => Ok s | Some c => Encrypt e c s b64_encoder end.

Definition num_of (objs : list kversion) (p : nat * key) : Z := v_num (deref objs (fst p)).

Lemma exec_WriteKey l k n enc e f : exec (WriteKey l k n enc e) f =
  match stored enc e k with Ok s => exec (WriteFile s l (key_file n)) f | Raise x => (f, Raise x) end.
Proof.
  unfold WriteKey, stored, pure. cbn [pbind]. destruct (key_str k) as [s|x]; cbn [bind]; [|reflexivity].
  destruct enc as [c|]; [|reflexivity]. cbn [pbind]. destruct (Encrypt e c s b64_encoder); reflexivity.
Qed.

(** Everything but the file [n] in [l] is as before. *)
Lemma set_to_other f g l n c l' n' : set_to f g l n c -> l' <> l \/ n' <> n -> file g l' n' = file f l' n'.
Proof.
  intros [_ H] D. rewrite H. destruct D as [D|D].
  - rewrite (str_eqb_neq l l') by congruence. reflexivity.
  - rewrite (str_eqb_neq n n') by congruence. rewrite andb_false_r. reflexivity.
Qed.
Lemma set_to_this f g l n c : set_to f g l n c -> file g l n = Some c.
Proof. intros [_ H]. rewrite H, !str_eqb_refl. reflexivity. Qed.

Lemma write_keys_spec l objs enc es : forall vk i f g r, has_dir f l = true ->
  exec (write_keys l objs vk enc es i) f = (g, r) -> NoDup (map (num_of objs) vk) ->
  (forall l', has_dir g l' = has_dir f l') /\
  (forall l' n', l' <> l \/ (forall p, In p vk -> n' <> key_file (num_of objs p)) -> file g l' n' = file f l' n') /\
  (forall p, In p vk -> file g l (key_file (num_of objs p)) = file f l (key_file (num_of objs p)) \/
      exists e s, stored enc e (snd p) = Ok s /\ file g l (key_file (num_of objs p)) = Some s) /\
  (r = Ok tt -> forall p, In p vk -> exists e s, stored enc e (snd p) = Ok s /\ file g l (key_file (num_of objs p)) = Some s).
Proof.
  induction vk as [|[o k] vk IH]; intros i f g r HD H ND; cbn [write_keys] in H.
  - cbn [exec] in H. apply pair_inj in H as [<- <-]. split; [reflexivity|]. split; [reflexivity|]. split; [intros p []|intros _ p []].
  - rewrite exec_bind, exec_WriteKey in H. destruct (stored enc (es i) k) as [s|x] eqn:ES.
    2:{ apply pair_inj in H as [<- <-]. split; [reflexivity|]. split; [reflexivity|]. split; [intros p _; left; reflexivity | discriminate]. }
    destruct (WriteFile_ok f s l (key_file (v_num (deref objs o))) HD) as (g1 & E1 & S1). rewrite E1 in H.
    cbn [map] in ND. inversion ND as [|? ? N1 N2]; subst.
    assert (HD1 : has_dir g1 l = true) by (rewrite (proj1 S1); exact HD).
    destruct (IH (S i) g1 g r HD1 H N2) as (A & B & C & D). split; [|split; [|split]].
    + intros l'. rewrite A. apply (proj1 S1).
    + intros l' n' HN. rewrite B.
      * apply (set_to_other _ _ _ _ _ _ _ S1). destruct HN as [HN|HN]; [left; exact HN | right; apply (HN (o, k)); left; reflexivity].
      * destruct HN as [HN|HN]; [left; exact HN | right]. intros p Hp. apply HN. right. exact Hp.
    + intros p [<-|Hp].
      * right. exists (es i), s. split; [exact ES|]. rewrite B; [apply (set_to_this _ _ _ _ _ S1)|].
        right. intros p Hp C2. apply N1. apply key_file_inj in C2. cbn [num_of fst] in C2 |- *. rewrite C2. apply in_map. exact Hp.
      * destruct (C p Hp) as [C1|C1]; [|right; exact C1]. left. rewrite C1. apply (set_to_other _ _ _ _ _ _ _ S1). right.
        intros C2. apply key_file_inj in C2. apply N1. unfold num_of at 1. cbn [fst]. rewrite <- C2. apply in_map. exact Hp.
    + intros -> p [<-|Hp].
      * exists (es i), s. split; [exact ES|]. rewrite B; [apply (set_to_this _ _ _ _ _ S1)|].
        right. intros p Hp C2. apply N1. apply key_file_inj in C2. cbn [num_of fst] in C2 |- *. rewrite C2. apply in_map. exact Hp.
      * apply (D eq_refl p Hp).
Qed.

Lemma write_keys_total l objs es : forall vk i f, has_dir f l = true -> Forall (fun p => key_wf (snd p)) vk ->
  exists g, exec (write_keys l objs vk None es i) f = (g, Ok tt).
Proof.
  induction vk as [|[o k] vk IH]; intros i f HD W; cbn [write_keys]; [eexists; reflexivity|].
  rewrite exec_bind, exec_WriteKey. unfold stored. rewrite (key_str_eq k (Forall_inv W)). cbn [bind].
  destruct (WriteFile_ok f (dumps (key_json k)) l (key_file (v_num (deref objs o))) HD) as (g1 & E1 & S1). rewrite E1.
  apply IH; [rewrite (proj1 S1); exact HD | apply (Forall_inv_tail W)].
Qed.

(** All keys of a set can be printed and read back. *)
Definition keys_wf (ks : keyset) : Prop := Forall (fun p => key_wf (snd p)) (ks_vkeys ks).

Lemma keys_wf_open c rd ks : open_keyset c rd = Ok ks -> keys_wf ks.
Proof.
  intros H. apply open_ok in H as (s & m & l & _ & _ & _ & _ & F & _ & _ & _ & _ & _ & _ & EV & _).
  unfold keys_wf. rewrite EV. apply Forall_forall. intros [o k] HI. cbn [snd]. apply in_combine_r in HI.
  destruct (Forall2_In_r _ _ _ _ F HI) as (v & _ & s' & h & _ & HR & HH). apply (ReadKey_wf _ _ _ _ HR HH).
Qed.

(** The random numbers drawn by a step are those of real RSA and DSA keys: not negative. *)
Definition draws_ok (o : op) : Prop :=
  match o with OpAdd ds _ _ => Forall (fun d => rsa_nonneg (d_rsa d) /\ dsa_nonneg (d_dsa d)) ds | _ => True end.

Lemma keys_wf_step ks o : inv ks -> keys_wf ks -> draws_ok o -> keys_wf (fst (step ks o)).
Proof.
  intros I W D. destruct o as [ds s size|n|n|n]; cbn [step draws_ok] in *.
  - rewrite AddVersion_eq. cbn zeta. destruct (negb _); [exact W|].
    destruct (prepare_same ks s I) as (_ & EV & _).
    destruct (gen_unique _ _ _ _) as [[k h]|e] eqn:EG; cbn [fst].
    + rewrite AddKey_eq by exact I. unfold keys_wf. cbn [ks_vkeys]. apply Forall_app. split; [exact W|].
      constructor; [|constructor]. cbn [snd]. apply gen_unique_ok in EG as (_ & _ & d & Hd & HG).
      rewrite Forall_forall in D. destruct (D d Hd) as [D1 D2]. apply (GenKey_wf d _ _ k HG); intros _; assumption.
    + unfold keys_wf. rewrite EV. exact W.
  - unfold Promote. destruct (GetVersion ks n) as [o|e]; [|exact W]. destruct (v_status _); try exact W.
    destruct (ks_primary ks); exact W.
  - unfold Demote. destruct (GetVersion ks n) as [o|e]; [|exact W]. destruct (v_status _); exact W.
  - unfold Revoke. destruct (GetVersion ks n) as [o|e]; [|exact W]. destruct (v_status _); exact W.
Qed.

Lemma keys_wf_run ops : forall ks, inv ks -> keys_wf ks -> Forall draws_ok ops -> keys_wf (run ks ops).
Proof.
  induction ops as [|o ops IH]; intros ks I W D; [exact W|]. cbn [run fold_left]. apply IH.
  - apply inv_step. exact I.
  - apply keys_wf_step; [exact I | exact W | apply (Forall_inv D)].
  - apply (Forall_inv_tail D).
Qed.

Lemma name_step ks o : inv ks -> ks_name (fst (step ks o)) = ks_name ks /\ ks_purpose (fst (step ks o)) = ks_purpose ks /\
  ks_type (fst (step ks o)) = ks_type ks /\ ks_encrypted (fst (step ks o)) = ks_encrypted ks.
Proof.
  intros I. destruct o as [ds s size|n|n|n]; cbn [step].
  - rewrite AddVersion_eq. cbn zeta. destruct (negb _); [repeat split; reflexivity|].
    destruct (prepare_same ks s I) as (_ & _ & _ & E1 & E2 & E3 & E4 & _).
    destruct (gen_unique _ _ _ _) as [[k h]|e]; cbn [fst]; [|repeat split; assumption].
    rewrite AddKey_eq by exact I. repeat split; reflexivity.
  - unfold Promote. destruct (GetVersion ks n) as [o|e]; [|repeat split; reflexivity].
    destruct (v_status _); try (repeat split; reflexivity). destruct (ks_primary ks); repeat split; reflexivity.
  - unfold Demote. destruct (GetVersion ks n) as [o|e]; [|repeat split; reflexivity]. destruct (v_status _); repeat split; reflexivity.
  - unfold Revoke. destruct (GetVersion ks n) as [o|e]; [|repeat split; reflexivity]. destruct (v_status _); repeat split; reflexivity.
Qed.

Lemma name_run ops : forall ks, inv ks -> ks_name (run ks ops) = ks_name ks /\ ks_purpose (run ks ops) = ks_purpose ks /\
  ks_type (run ks ops) = ks_type ks /\ ks_encrypted (run ks ops) = ks_encrypted ks.
Proof.
  induction ops as [|o ops IH]; intros ks I; [repeat split; reflexivity|]. cbn [run fold_left].
  destruct (IH (fst (step ks o)) (inv_step ks o I)) as (A & B & C & D). destruct (name_step ks o I) as (A' & B' & C' & D').
  unfold run in A, B, C, D. rewrite A, B, C, D, A', B', C', D'. repeat split; reflexivity.
Qed.

Lemma nums_NoDup ks : inv ks -> NoDup (map (num_of (ks_objs ks)) (ks_vkeys ks)).
Proof. intros I. pose proof (inv_nums ks I) as N. unfold ks_versions in N. rewrite map_map in N. exact N. Qed.

Lemma ks_meta_wf ks : inv ks -> meta_wf (ks_meta ks).
Proof.
  intros I. split.
  - unfold ks_meta. cbn [m_versions]. rewrite map_map. cbn [fst]. apply (inv_mkeys ks I).
  - unfold ks_meta. cbn [m_versions]. apply Forall_map, Forall_forall. intros [n o] HI. cbn [fst snd]. apply (inv_mvers ks I n o HI).
Qed.

(** What is on the disk after [WriteSet], whether or not it succeeds. *)
Lemma WriteSet_spec ks l enc es f g r : inv ks -> exec (WriteSet ks l enc es) f = (g, r) ->
  (has_dir f l = false -> g = f /\ r <> Ok tt) /\
  (has_dir f l = true ->
    file g l meta_file = Some (dumps (meta_json (ks_meta (written ks enc)) (map version_json (meta_versions (ks_meta ks)))))) /\
  (forall l', has_dir g l' = has_dir f l') /\
  (forall l' n', l' <> l \/ (n' <> meta_file /\ forall p, In p (ks_vkeys ks) -> n' <> key_file (num_of (ks_objs ks) p)) -> file g l' n' = file f l' n') /\
  (forall p, In p (ks_vkeys ks) -> file g l (key_file (num_of (ks_objs ks) p)) = file f l (key_file (num_of (ks_objs ks) p)) \/
      exists e s, stored enc e (snd p) = Ok s /\ file g l (key_file (num_of (ks_objs ks) p)) = Some s) /\
  (r = Ok tt -> forall p, In p (ks_vkeys ks) ->
      exists e s, stored enc e (snd p) = Ok s /\ file g l (key_file (num_of (ks_objs ks) p)) = Some s).
Proof.
  intros I H. unfold WriteSet, WriteMetadata, pure in H. rewrite exec_bind, meta_str_eq in H. cbn [pbind] in H.
  set (s0 := dumps _) in H. destruct (has_dir f l) eqn:HD.
  - destruct (WriteFile_ok f s0 l meta_file HD) as (g1 & E1 & S1). rewrite E1 in H.
    assert (HD1 : has_dir g1 l = true) by (rewrite (proj1 S1); exact HD).
    destruct (write_keys_spec _ _ _ _ _ _ _ _ _ HD1 H (nums_NoDup ks I)) as (A & B & C & D).
    split; [discriminate|]. split; [|split; [|split; [|split]]].
    + intros _. rewrite B; [apply (set_to_this _ _ _ _ _ S1)|]. right. intros p _ C2. apply (key_file_meta (num_of (ks_objs ks) p)). congruence.
    + intros l'. rewrite A. apply (proj1 S1).
    + intros l' n' HN. rewrite B by tauto. apply (set_to_other _ _ _ _ _ _ _ S1). tauto.
    + intros p Hp. destruct (C p Hp) as [C1|C1]; [left|right; exact C1]. rewrite C1. apply (set_to_other _ _ _ _ _ _ _ S1). right. apply key_file_meta.
    + exact D.
  - rewrite WriteFile_fail in H by exact HD. apply pair_inj in H as [<- <-]. split; [intros _; split; [reflexivity | discriminate]|].
    split; [discriminate|]. split; [reflexivity|]. split; [reflexivity|]. split; [intros p _; left; reflexivity | discriminate].
Qed.

Lemma WriteSet_total ks l es f : has_dir f l = true -> keys_wf ks -> exists g, exec (WriteSet ks l None es) f = (g, Ok tt).
Proof.
  intros HD W. unfold WriteSet, WriteMetadata, pure. rewrite exec_bind, meta_str_eq. cbn [pbind].
  match goal with |- context[exec (WriteFile ?s _ _) _] => destruct (WriteFile_ok f s l meta_file HD) as (g1 & E1 & S1) end.
  rewrite E1. apply write_keys_total; [rewrite (proj1 S1); exact HD | exact W].
Qed.

(** ** Loading it again *)

Lemma load_keys_intro rd t : forall vs l, Forall2 (loaded rd t) vs l -> forall o p vk hk,
  (p <> None -> forall v, In v vs -> v_status v <> PRIMARY) ->
  (forall i j v w, nth_error vs i = Some v -> nth_error vs j = Some w -> v_status v = PRIMARY -> v_status w = PRIMARY -> i = j) ->
  exists p' hk', load_keys rd t o vs p vk hk = Ok (p', vk ++ combine (seq o (length vs)) l, hk').
Proof.
  intros vs l F. induction F as [|v k vs l (s & h & E1 & E2 & E3) F IH]; intros o p vk hk H1 H2.
  - exists p, hk. cbn. rewrite app_nil_r. reflexivity.
  - cbn [load_keys length seq combine].
    assert (T : forall i j v' w', nth_error vs i = Some v' -> nth_error vs j = Some w' -> v_status v' = PRIMARY -> v_status w' = PRIMARY -> i = j).
    { intros i j v' w' A B C D. pose proof (H2 (S i) (S j) v' w' A B C D). lia. }
    destruct (status_eqb (v_status v) PRIMARY) eqn:ES.
    + apply status_eqb_eq in ES. destruct p as [q|]; [exfalso; apply (H1 ltac:(discriminate) v (or_introl eq_refl) ES)|].
      cbn [bind]. rewrite E1. cbn [bind]. rewrite E2. cbn [bind]. rewrite E3. cbn [bind].
      destruct (IH (S o) (Some o) (vk ++ [(o, k)]) (dict_set str_eqb hk h k)) as (p' & hk' & E).
      * intros _ w Hw C. apply In_nth_error in Hw as [i Hi]. pose proof (H2 0%nat (S i) v w eq_refl Hi ES C). discriminate.
      * exact T.
      * exists p', hk'. rewrite E, <- app_assoc. reflexivity.
    + cbn [bind]. rewrite E1. cbn [bind]. rewrite E2. cbn [bind]. rewrite E3. cbn [bind].
      destruct (IH (S o) p (vk ++ [(o, k)]) (dict_set str_eqb hk h k)) as (p' & hk' & E).
      * intros N w Hw. apply H1; [exact N | right; exact Hw].
      * exact T.
      * exists p', hk'. rewrite E, <- app_assoc. reflexivity.
Qed.

(** The ring of a set just opened. *)
Lemma assoc_combine_seq {A} (l : list A) : forall o i, assoc Nat.eqb (combine (seq o (length l)) l) (o + i)%nat = nth_error l i.
Proof.
  induction l as [|a l IH]; intros o i; cbn [length seq combine assoc]; [destruct i; reflexivity|].
  destruct i as [|i]; [rewrite Nat.add_0_r, Nat.eqb_refl; reflexivity|].
  destruct (Nat.eqb_spec o (o + S i)) as [C|_]; [lia|]. cbn [nth_error]. rewrite <- (IH (S o) i). f_equal. lia.
Qed.

Lemma assoc_combine_nums (vs : list (Z * kversion)) n : forall o,
  match assoc Z.eqb vs n with
  | Some v => exists i, assoc Z.eqb (combine (map fst vs) (seq o (length vs))) n = Some (o + i)%nat /\ nth_error (map snd vs) i = Some v
  | None => assoc Z.eqb (combine (map fst vs) (seq o (length vs))) n = None
  end.
Proof.
  induction vs as [|[a v] vs IH]; intros o; cbn [map fst snd length seq combine assoc]; [reflexivity|].
  destruct (a =? n) eqn:E.
  - exists 0%nat. rewrite Nat.add_0_r. split; reflexivity.
  - specialize (IH (S o)). destruct (assoc Z.eqb vs n) as [w|]; [|exact IH]. destruct IH as (i & A & B). exists (S i). rewrite Nat.add_succ_r. split; assumption.
Qed.

Lemma open_ring c rd ks s m : open_keyset c rd = Ok ks -> rd_meta rd = Ok s -> meta_Read s = Ok m -> forall n,
  ring_of ks n = match assoc Z.eqb (m_versions m) n with
                 | Some v => match (let* x := rd_key rd n in ReadKey (m_type m) x) with Ok k => Some (v_status v, k) | Raise _ => None end
                 | None => None
                 end.
Proof.
  intros H HM HR n. apply open_ok in H as (s' & m' & l & HM' & HR' & _ & _ & F & _ & _ & _ & _ & EO & EM & EV & _).
  rewrite HM in HM'. apply Ok_inj in HM' as <-. rewrite HR in HR'. apply Ok_inj in HR' as <-.
  unfold ring_of. rewrite EM, EV, EO. unfold meta_versions. rewrite map_length.
  pose proof (assoc_combine_nums (m_versions m) n 0) as A. destruct (assoc Z.eqb (m_versions m) n) as [v|] eqn:EA; [|rewrite A; reflexivity].
  destruct A as (i & A & B). rewrite A. cbn [Nat.add]. rewrite (nth_deref _ _ _ B).
  pose proof (Forall2_length' _ _ _ F) as HL. unfold meta_versions in HL, F. rewrite map_length in HL. rewrite HL.
  change i with (0 + i)%nat. rewrite assoc_combine_seq. cbn [Nat.add].
  assert (G : forall vs l, Forall2 (loaded rd (m_type m)) vs l -> forall i v, nth_error vs i = Some v ->
            exists k, nth_error l i = Some k /\ loaded rd (m_type m) v k).
  { clear. intros vs l F. induction F as [|a b vs l R F IH]; intros i v H; [destruct i; discriminate|].
    destruct i as [|i]; cbn [nth_error] in *; [apply Some_inj in H as <-; exists b; split; [reflexivity | exact R] | apply IH; exact H]. }
  destruct (G _ _ F i v B) as (k & Hk & (x & h & R1 & R2 & _)). rewrite Hk.
  pose proof (proj2 (meta_Read_wf s m HR)) as W. rewrite Forall_forall in W.
  specialize (W (n, v) (assoc_In Z.eqb_eq EA)). cbn [fst snd] in W. rewrite W in R1. rewrite R1. cbn [bind]. rewrite R2. reflexivity.
Qed.

(** Reading with [cr] what was written with [enc]. *)
Definition reads_back (enc cr : option keyset) : Prop :=
  match enc, cr with
  | None, None => True
  | Some a, Some b => forall e s ct, Encrypt e a s b64_encoder = Ok ct -> Decrypt b ct b64_decoder = Ok s
  | _, _ => False
  end.

Lemma one_primary_meta ks : inv ks -> forall i j v w, nth_error (meta_versions (ks_meta ks)) i = Some v ->
  nth_error (meta_versions (ks_meta ks)) j = Some w -> v_status v = PRIMARY -> v_status w = PRIMARY -> i = j.
Proof.
  intros I i j v w Hi Hj HV HW. unfold meta_versions, ks_meta in Hi, Hj. cbn [m_versions] in Hi, Hj. rewrite map_map in Hi, Hj. cbn [snd] in Hi, Hj.
  rewrite nth_error_map in Hi, Hj.
  destruct (nth_error (ks_mvers ks) i) as [[n o]|] eqn:Ei; [|discriminate]. destruct (nth_error (ks_mvers ks) j) as [[n' o']|] eqn:Ej; [|discriminate].
  cbn [option_map snd] in Hi, Hj. apply Some_inj in Hi as <-. apply Some_inj in Hj as <-.
  destruct (inv_mvers ks I n o (nth_error_In _ _ Ei)) as [A1 A2]. destruct (inv_mvers ks I n' o' (nth_error_In _ _ Ej)) as [B1 B2].
  pose proof (inv_prim1 ks I o A1 HV) as P1. pose proof (inv_prim1 ks I o' B1 HW) as P2. rewrite P1 in P2. apply Some_inj in P2 as <-.
  pose proof (inv_mkeys ks I) as ND. rewrite NoDup_nth_error in ND. apply ND.
  - rewrite map_length. apply nth_error_Some. congruence.
  - rewrite !nth_error_map, Ei, Ej. cbn [option_map fst]. congruence.
Qed.

(** The files of a metadata object with given keys, opened. *)
Lemma open_from_disk g l cr m (keyof : Z -> option key) c :
  meta_wf m -> text_ok (m_name m) ->
  (forall i j v w, nth_error (meta_versions m) i = Some v -> nth_error (meta_versions m) j = Some w ->
     v_status v = PRIMARY -> v_status w = PRIMARY -> i = j) ->
  IsAcceptablePurpose c (m_purpose m) = true -> (m_encrypted m = true -> cr <> None) ->
  file g l meta_file = Some (dumps (meta_json m (map version_json (meta_versions m)))) ->
  (forall n v, In (n, v) (m_versions m) -> exists s k h, keyof n = Some k /\ rd_key (disk_reader g l cr) n = Ok s /\
     ReadKey (m_type m) s = Ok k /\ key_hash_id k = Ok h) ->
  exists ks', open_keyset c (disk_reader g l cr) = Ok ks' /\ ks_meta ks' = m /\
    forall n, ring_of ks' n = match assoc Z.eqb (m_versions m) n, keyof n with Some v, Some k => Some (v_status v, k) | _, _ => None end.
Proof.
  intros MW HN OP HP HE S2 HK.
  assert (EM : rd_meta (disk_reader g l cr) = answer (file g l meta_file)) by (destruct cr; reflexivity).
  rewrite S2 in EM. cbn [answer] in EM.
  assert (RT : meta_Read (dumps (meta_json m (map version_json (meta_versions m)))) = Ok m) by (apply meta_rt; [exact MW | exact HN|]; apply meta_str_eq).
  assert (F : exists ls, Forall2 (loaded (disk_reader g l cr) (m_type m)) (meta_versions m) ls).
  { assert (G : forall mv, incl mv (m_versions m) -> exists ls, Forall2 (loaded (disk_reader g l cr) (m_type m)) (map snd mv) ls).
    { induction mv as [|[n v] mv IH]; intros HI; [exists []; constructor|].
      destruct IH as (ls & F); [intros x Hx; apply HI; right; exact Hx|].
      assert (HIn : In (n, v) (m_versions m)) by (apply HI; left; reflexivity).
      destruct (HK n v HIn) as (s & k & h & _ & A & B & C).
      pose proof (proj1 (Forall_forall _ _) (proj2 MW) (n, v) HIn) as NV. cbn [fst snd] in NV.
      exists (k :: ls). cbn [map fst snd]. constructor; [|exact F]. exists s, h. rewrite NV. repeat split; assumption. }
    apply (G (m_versions m)). apply incl_refl. }
  destruct F as (ls & F).
  destruct (load_keys_intro _ _ _ _ F 0%nat None [] [] ltac:(intros C; contradiction C; reflexivity) OP) as (p' & hk' & EL).
  assert (EO : exists ks', open_keyset c (disk_reader g l cr) = Ok ks').
  { unfold open_keyset. rewrite EM. cbn [bind]. rewrite RT. cbn [bind]. rewrite HP. cbn [negb].
    assert (EE : m_encrypted m && negb (rd_encrypted (disk_reader g l cr)) = false).
    { destruct (m_encrypted m); [|reflexivity]. destruct cr; [reflexivity | contradiction (HE eq_refl eq_refl)]. }
    rewrite EE, EL. cbn [bind]. eexists. reflexivity. }
  destruct EO as (ks' & EO). exists ks'. split; [exact EO|]. split.
  - pose proof (open_ok _ _ _ EO) as (s' & m' & l' & HM' & HR' & _ & _ & _ & E1 & E2 & E3 & E4 & E5 & E6 & _).
    rewrite EM in HM'. apply Ok_inj in HM' as <-. rewrite RT in HR'. apply Ok_inj in HR' as <-.
    unfold ks_meta. rewrite E1, E2, E3, E4, E5, E6.
    assert (G : forall vs : list (Z * kversion), map (fun p => (fst p, deref (map snd vs) (snd p))) (combine (map fst vs) (seq 0 (length (map snd vs)))) = vs).
    { intros vs. assert (K : forall vs pre : list (Z * kversion), map (fun p => (fst p, deref (map snd (pre ++ vs)) (snd p))) (combine (map fst vs) (seq (length pre) (length (map snd vs)))) = vs).
      { clear. induction vs as [|[a v] vs IH]; intros pre; [reflexivity|]. cbn [map fst snd length seq combine]. f_equal.
        - f_equal. unfold deref. rewrite map_app, app_nth2 by (rewrite map_length; lia). rewrite map_length, Nat.sub_diag. reflexivity.
        - specialize (IH (pre ++ [(a, v)])). rewrite app_length, Nat.add_1_r, <- app_assoc in IH. exact IH. }
      exact (K vs []). }
    unfold meta_versions. rewrite (G (m_versions m)). destruct m; reflexivity.
  - intros n. rewrite (open_ring _ _ _ _ _ EO EM RT n).
    destruct (assoc Z.eqb (m_versions m) n) as [v|] eqn:EA; [|reflexivity].
    destruct (HK n v (assoc_In Z.eqb_eq EA)) as (s & k & h & -> & -> & B & _). cbn [bind]. rewrite B. reflexivity.
Qed.

(** The files of the versions of [ks], as [WriteSet ks] writes them. *)
Definition on_disk (g : disk) (l : str) (enc : option keyset) (ks : keyset) : Prop :=
  file g l meta_file = Some (dumps (meta_json (ks_meta (written ks enc)) (map version_json (meta_versions (ks_meta ks))))) /\
  forall n o k, In (n, o) (ks_mvers ks) -> In (o, k) (ks_vkeys ks) -> exists e s, stored enc e k = Ok s /\ file g l (key_file n) = Some s.

Lemma WriteSet_on_disk ks l enc es f g : inv ks -> exec (WriteSet ks l enc es) f = (g, Ok tt) -> on_disk g l enc ks.
Proof.
  intros I H. pose proof (WriteSet_spec _ _ _ _ _ _ _ I H) as (S1 & S2 & _ & _ & _ & S5).
  destruct (has_dir f l) eqn:HD; [|destruct (S1 eq_refl) as [_ C]; contradiction (C eq_refl)].
  split; [exact (S2 eq_refl)|]. intros n o k H1 H2. destruct (S5 eq_refl (o, k) H2) as (e & s & ES & EF). exists e, s. split; [exact ES|].
  unfold num_of in EF. cbn [fst] in EF. rewrite (proj2 (inv_mvers ks I n o H1)) in EF. exact EF.
Qed.

(** Opening a key set written to disk gives the same key set, without revoked versions. *)
Lemma reopen_disk ks l enc cr g c : inv ks -> keys_wf ks -> text_ok (ks_name ks) -> reads_back enc cr -> on_disk g l enc ks ->
  IsAcceptablePurpose c (ks_purpose ks) = true ->
  exists ks', open_keyset c (disk_reader g l cr) = Ok ks' /\ ks_meta ks' = ks_meta (written ks enc) /\
    forall n, ring_of ks' n = ring_of ks n.
Proof.
  intros I W HN RB [S2 S5] HP. assert (IW : inv (written ks enc)) by (destruct I; split; assumption).
  assert (ER : forall n, rd_key (disk_reader g l cr) n =
    match cr with None => answer (file g l (key_file n)) | Some b => let* s := answer (file g l (key_file n)) in Decrypt b s b64_decoder end)
    by (intros n; destruct cr; reflexivity).
  assert (G : forall n, assoc Z.eqb (m_versions (ks_meta (written ks enc))) n = option_map (deref (ks_objs ks)) (assoc Z.eqb (ks_mvers ks) n)).
  { intros n. unfold ks_meta. cbn [m_versions written set_encrypted ks_objs ks_mvers]. clear. induction (ks_mvers ks) as [|[a o] mv IH]; cbn [map assoc fst snd]; [reflexivity|].
    destruct (a =? n); [reflexivity | exact IH]. }
  destruct (open_from_disk g l cr (ks_meta (written ks enc)) (fun n => option_map snd (ring_of ks n)) c) as (ks' & E1 & E2 & E3).
  - apply ks_meta_wf, IW.
  - exact HN.
  - apply (one_primary_meta _ IW).
  - exact HP.
  - cbn. destruct enc, cr; try contradiction RB; discriminate.
  - exact S2.
  - intros n v Hv. unfold ks_meta in Hv. cbn [m_versions written set_encrypted ks_objs ks_mvers] in Hv. apply in_map_iff in Hv as ([n' o] & E & HI).
    cbn [fst snd] in E. apply pair_inj in E as [-> <-].
    destruct (ring_known ks n o I) as (k & A & B); [apply (assoc_NoDup Z.eqb_eq); [apply (inv_mkeys ks I) | exact HI]|].
    pose proof (assoc_In Nat.eqb_eq A) as A'. destruct (S5 n o k HI A') as (e & s & ES & EF).
    destruct (inv_hash1 ks I o k A') as (h & _ & HH & _).
    pose proof (proj1 (Forall_forall _ _) W (o, k) A') as WK. cbn [snd] in WK. unfold stored in ES. rewrite (key_str_eq k WK) in ES. cbn [bind] in ES.
    exists (dumps (key_json k)), k, h. rewrite B. split; [reflexivity|]. split; [|split; [change (m_type _) with (ks_type ks); rewrite <- (inv_type ks I o k A'); apply key_rt; exact WK | exact HH]].
    rewrite ER, EF. cbn [answer bind]. destruct enc as [a|], cr as [b|]; try contradiction RB.
    + apply (RB _ _ _ ES).
    + apply Ok_inj in ES as <-. reflexivity.
  - exists ks'. split; [exact E1|]. split; [exact E2|]. intros n. rewrite E3, G.
    destruct (assoc Z.eqb (ks_mvers ks) n) as [o|] eqn:EA; cbn [option_map].
    + destruct (ring_known ks n o I EA) as (k & _ & ->). reflexivity.
    + unfold ring_of. rewrite EA. reflexivity.
Qed.

Lemma reopen ks l enc cr es f g c : inv ks -> keys_wf ks -> text_ok (ks_name ks) -> reads_back enc cr ->
  exec (WriteSet ks l enc es) f = (g, Ok tt) -> IsAcceptablePurpose c (ks_purpose ks) = true ->
  exists ks', open_keyset c (disk_reader g l cr) = Ok ks' /\ ks_meta ks' = ks_meta (written ks enc) /\
    forall n, ring_of ks' n = ring_of ks n.
Proof. intros I W HN RB H. apply reopen_disk; try assumption. apply (WriteSet_on_disk _ _ _ _ _ _ I H). Qed.

(** ** Exporting public keys *)

Lemma export_keys_spec dest objs : forall vk m f, has_dir f dest = true ->
  NoDup (map fst (m_versions m) ++ map (num_of objs) vk) ->
  Forall (fun p => exists pub s, public_key (snd p) = Ok pub /\ key_str pub = Ok s) vk ->
  exists g, exec (export_keys dest objs vk m) f =
    (g, Ok (MkMeta (m_name m) (m_purpose m) (m_type m) (m_encrypted m) (m_versions m ++ map (fun p => (num_of objs p, deref objs (fst p))) vk))) /\
    (forall l', has_dir g l' = has_dir f l') /\
    (forall l' n', l' <> dest \/ (forall p, In p vk -> n' <> key_file (num_of objs p)) -> file g l' n' = file f l' n') /\
    (forall p, In p vk -> exists pub s, public_key (snd p) = Ok pub /\ key_str pub = Ok s /\ file g dest (key_file (num_of objs p)) = Some s).
Proof.
  induction vk as [|[o k] vk IH]; intros m f HD ND F; cbn [export_keys].
  - exists f. cbn [map]. rewrite app_nil_r. destruct m. repeat split. intros p [].
  - unfold pure. destruct (Forall_inv F) as (pub & s & EP & ES). cbn [snd] in EP. rewrite EP. cbn [pbind]. rewrite ES. cbn [pbind].
    rewrite exec_bind. destruct (WriteFile_ok f s dest (key_file (v_num (deref objs o))) HD) as (g1 & E1 & S1). rewrite E1.
    assert (N : assoc Z.eqb (m_versions m) (v_num (deref objs o)) = None).
    { apply (assoc_None Z.eqb_eq). intros C. cbn [map] in ND. apply NoDup_remove_2 in ND. apply ND, in_or_app. left. exact C. }
    unfold meta_AddVersion. rewrite N. cbn [fst].
    edestruct IH as (g & EG & A & B & C); [rewrite (proj1 S1); exact HD | | apply (Forall_inv_tail F) |].
    2:{ exists g. rewrite EG. cbn [m_name m_purpose m_type m_encrypted m_versions]. split; [|split; [|split]].
      - cbn [map]. rewrite <- app_assoc. reflexivity.
      - intros l'. rewrite A. apply (proj1 S1).
      - intros l' n' HN. rewrite B.
        + apply (set_to_other _ _ _ _ _ _ _ S1). destruct HN as [HN|HN]; [left; exact HN | right; apply (HN (o, k)); left; reflexivity].
        + destruct HN as [HN|HN]; [left; exact HN | right]. intros p Hp. apply HN. right. exact Hp.
      - intros p [<-|Hp]; [|apply (C p Hp)]. exists pub, s. split; [exact EP|]. split; [exact ES|]. rewrite B; [apply (set_to_this _ _ _ _ _ S1)|].
        right. intros p Hp C2. apply key_file_inj in C2. cbn [map] in ND. apply NoDup_remove_2 in ND. apply ND, in_or_app. right.
        unfold num_of at 1. cbn [fst]. unfold num_of in C2 at 1. cbn [fst] in C2. rewrite C2. apply in_map. exact Hp. }
    cbn [m_versions]. rewrite map_app. cbn [map fst]. rewrite <- app_assoc. exact ND.
Qed.

(** ** The class method Read *)

Lemma exec_read_location c l f : exec (read_location c l) f = if has_dir f l then exec (open_files c l None) f else (f, Raise KeyczarError).
Proof.
  assert (V : exec (do _ <- CreateReader l; open_files c l None) f = if has_dir f l then exec (open_files c l None) f else (f, Raise KeyczarError)).
  { rewrite exec_bind. assert (E : exec (CreateReader l) f = if has_dir f l then (f, Ok IsFileReader) else (f, Raise KeyczarError)) by (cbn; destruct (has_dir f l); reflexivity). rewrite E. destruct (has_dir f l); reflexivity. }
  assert (U : exec (open_files c l None) f = if has_dir f l then exec (open_files c l None) f else (f, Raise KeyczarError)).
  { destruct (has_dir f l) eqn:E; [reflexivity|]. unfold open_files. rewrite exec_bind. cbn [GetMetadata ReadFile exec]. unfold file. unfold has_dir in E. destruct (assoc str_eqb f l); [discriminate | reflexivity]. }
  destruct c; cbn [read_location]; first [exact V | exact U].
Qed.
