(** * CrashFacts: what a program that is killed leaves on the disk. *)
From Coq Require Import Strings.String.
From Coq Require Import List ZArith NArith Bool Lia ZifyBool ZifyNat ZifyN.
From Coq.Init Require Import Byte.
From Verif Require Import PyBase PyFacts Json JsonFacts KeyInfo Keys KeysFacts KeyData Keyczar KeyRing KeyczarFacts Disk Keyczart DiskFacts.
Import ListNotations.
Local Open Scope Z_scope.
Ltac Zify.zify_post_hook ::= idtac.

Lemma during_cases {A} f (p : prog A) g : during f p g ->
  g = f \/ (exists l n d d1 d2 k, p = Write l n d k /\ d = d1 ++ d2 /\ g = put f l n d1) \/
  exists f' p', dstep f p = (f', p') /\ during f' p' g.
Proof. intros H. destruct H as [f p|f l n d d1 d2 k E|f p f' p' g S H]; [left; reflexivity | right; left; exists l, n, d, d1, d2, k; auto | right; right; exists f', p'; auto]. Qed.

Lemma during_Done {A} (r : res A) f g : during f (Done r) g -> g = f.
Proof.
  intros H. remember (Done r) as p eqn:E. induction H as [f p|f l n d d1 d2 k|f p f' p' g S H IH]; [reflexivity | discriminate|].
  subst p. cbn [dstep] in S. apply pair_inj in S as [<- <-]. apply IH. reflexivity.
Qed.

Lemma during_bind {A B} (p : prog A) (q : A -> prog B) : forall f g, during f (pbind p q) g ->
  during f p g \/ exists f1 a, exec p f = (f1, Ok a) /\ during f1 (q a) g.
Proof.
  induction p as [[a|e]|l n k IH|l k IH|l n k IH|l n k IH|l n d k IH|l n k IH|l k IH]; intros f g H; cbn [pbind] in H.
  1:{ right. exists f, a. split; [reflexivity | exact H]. }
  1:{ left. apply during_Done in H as ->. constructor. }
  all: apply during_cases in H as [->|[(l0 & n0 & d0 & d1 & d2 & k0 & EP & -> & ->)|(f' & p' & ES & HS)]];
    [left; constructor | try discriminate EP; injection EP as -> -> -> _; left; apply (DurPart _ _ _ _ d1 d2); reflexivity | cbn [dstep] in ES].
  1,2,3,7: apply pair_inj in ES as [<- <-]; apply IH in HS as [HS|(f1 & a & HX & HS)];
    [left; eapply DurStep; [reflexivity | exact HS] | right; exists f1, a; split; [exact HX | exact HS]].
  - destruct (has_dir f l) eqn:HD; apply pair_inj in ES as [<- <-]; apply IH in HS as [HS|(f1 & a & HX & HS)].
    + left. eapply DurStep; [cbn [dstep]; rewrite HD; reflexivity | exact HS].
    + right. exists f1, a. cbn [exec]. rewrite HD. split; [exact HX | exact HS].
    + left. eapply DurStep; [cbn [dstep]; rewrite HD; reflexivity | exact HS].
    + right. exists f1, a. cbn [exec]. rewrite HD. split; [exact HX | exact HS].
  - apply pair_inj in ES as [<- <-]; apply IH in HS as [HS|(f1 & a & HX & HS)];
    [left; eapply DurStep; [reflexivity | exact HS] | right; exists f1, a; split; [exact HX | exact HS]].
  - destruct (file f l n) eqn:HD; apply pair_inj in ES as [<- <-]; apply IH in HS as [HS|(f1 & a & HX & HS)].
    + left. eapply DurStep; [cbn [dstep]; rewrite HD; reflexivity | exact HS].
    + right. exists f1, a. cbn [exec]. rewrite HD. split; [exact HX | exact HS].
    + left. eapply DurStep; [cbn [dstep]; rewrite HD; reflexivity | exact HS].
    + right. exists f1, a. cbn [exec]. rewrite HD. split; [exact HX | exact HS].
Qed.

Lemma during_bind_l {A B} (p : prog A) (q : A -> prog B) : forall f g, during f p g -> during f (pbind p q) g.
Proof.
  intros f g H. induction H as [f p|f l n d d1 d2 k E|f p f' p' g S H IH]; [constructor | cbn [pbind]; apply (DurPart f l n d d1 d2 _ E)|].
  destruct p as [[a|e]|l n k|l k|l n k|l n k|l n d k|l n k|l k]; cbn [dstep] in S.
  1,2: apply pair_inj in S as [<- <-]; exact IH.
  1,2,3,7: apply pair_inj in S as [<- <-]; cbn [pbind]; eapply DurStep; [reflexivity | exact IH].
  - cbn [pbind]. destruct (has_dir f l) eqn:HD; apply pair_inj in S as [<- <-]; (eapply DurStep; [cbn [dstep]; rewrite HD; reflexivity | exact IH]).
  - apply pair_inj in S as [<- <-]; cbn [pbind]; eapply DurStep; [reflexivity | exact IH].
  - cbn [pbind]. destruct (file f l n) eqn:HD; apply pair_inj in S as [<- <-]; (eapply DurStep; [cbn [dstep]; rewrite HD; reflexivity | exact IH]).
Qed.

Lemma during_bind_r {A B} (p : prog A) (q : A -> prog B) : forall f f1 a g, exec p f = (f1, Ok a) -> during f1 (q a) g -> during f (pbind p q) g.
Proof.
  induction p as [[x|e]|l n k IH|l k IH|l n k IH|l n k IH|l n d k IH|l n k IH|l k IH]; intros f f1 a g HX H; cbn [exec] in HX; cbn [pbind].
  - apply pair_inj in HX as [<- HX]. apply Ok_inj in HX as <-. exact H.
  - apply pair_inj in HX as [_ HX]. discriminate.
  - eapply DurStep; [reflexivity|]. apply (IH _ _ _ _ _ HX H).
  - eapply DurStep; [reflexivity|]. apply (IH _ _ _ _ _ HX H).
  - eapply DurStep; [reflexivity|]. apply (IH _ _ _ _ _ HX H).
  - destruct (has_dir f l) eqn:HD; (eapply DurStep; [cbn [dstep]; rewrite HD; reflexivity|]); apply (IH _ _ _ _ _ HX H).
  - eapply DurStep; [reflexivity|]. apply (IH _ _ _ _ HX H).
  - destruct (file f l n) eqn:HD; (eapply DurStep; [cbn [dstep]; rewrite HD; reflexivity|]); apply (IH _ _ _ _ _ HX H).
  - eapply DurStep; [reflexivity|]. apply (IH _ _ _ _ _ HX H).
Qed.

(** The end of a run is one of its moments. *)
Lemma during_end {A} (p : prog A) : forall f g r, exec p f = (g, r) -> during f p g.
Proof.
  induction p as [r0|l n k IH|l k IH|l n k IH|l n k IH|l n d k IH|l n k IH|l k IH]; intros f g r H; cbn [exec] in H.
  - apply pair_inj in H as [<- _]. constructor.
  - eapply DurStep; [reflexivity|]. apply (IH _ _ _ _ H).
  - eapply DurStep; [reflexivity|]. apply (IH _ _ _ _ H).
  - eapply DurStep; [reflexivity|]. apply (IH _ _ _ _ H).
  - destruct (has_dir f l) eqn:HD; (eapply DurStep; [cbn [dstep]; rewrite HD; reflexivity|]); apply (IH _ _ _ _ H).
  - eapply DurStep; [reflexivity|]. apply (IH _ _ _ H).
  - destruct (file f l n) eqn:HD; (eapply DurStep; [cbn [dstep]; rewrite HD; reflexivity|]); apply (IH _ _ _ _ H).
  - eapply DurStep; [reflexivity|]. apply (IH _ _ _ _ H).
Qed.

(** ** Programs that only read *)
Fixpoint reads {A} (p : prog A) : Prop :=
  match p with
  | Done _ => True
  | Read _ _ k => forall o, reads (k o)
  | IsDir _ k | IsFile _ _ k => forall b, reads (k b)
  | List _ k => forall o, reads (k o)
  | OpenW _ _ _ | Write _ _ _ _ | Remove _ _ _ => False
  end.

Lemma reads_bind {A B} (p : prog A) (q : A -> prog B) : reads p -> (forall a, reads (q a)) -> reads (pbind p q).
Proof. induction p as [[a|e]|l n k IH|l k IH|l n k IH|l n k IH|l n d k IH|l n k IH|l k IH]; cbn [reads pbind]; intros R Q; auto; contradiction. Qed.

Lemma during_reads {A} (p : prog A) : reads p -> forall f g, during f p g -> g = f.
Proof.
  intros R f g H. induction H as [f p|f l n d d1 d2 k|f p f' p' g S H IH]; [reflexivity | contradiction R|].
  destruct p; cbn [dstep reads] in *; try contradiction R; apply pair_inj in S as [<- <-]; apply IH; auto.
Qed.

Lemma exec_reads {A} (p : prog A) : reads p -> forall f, fst (exec p f) = f.
Proof. intros R f. destruct (exec p f) as [g r] eqn:E. apply (during_reads p R f g). apply (during_end p f g r E). Qed.

Lemma reads_load l cr t : forall vs o p vk hk, reads (load_files l cr t o vs p vk hk).
Proof.
  induction vs as [|v vs IH]; intros o p vk hk; cbn [load_files]; [exact I|].
  apply reads_bind; [destruct (status_eqb _ _); [destruct p|]; exact I|]. intros p'.
  apply reads_bind; [unfold GetKey; apply reads_bind; [cbn; intros []; exact I | intros s; destruct cr; exact I]|]. intros s.
  apply reads_bind; [exact I|]. intros k. apply reads_bind; [exact I|]. intros h. apply IH.
Qed.
Lemma reads_open c l cr : reads (open_files c l cr).
Proof.
  unfold open_files. apply reads_bind; [cbn; intros []; exact I|]. intros s. apply reads_bind; [exact I|]. intros m.
  destruct (negb _); [exact I|]. destruct (_ && _); [exact I|]. apply reads_bind; [apply reads_load|]. intros [[p vk] hk]. exact I.
Qed.
Lemma reads_reader l : reads (CreateReader l).
Proof. cbn. intros [|]; exact I. Qed.
Lemma reads_writer l : reads (CreateWriter l).
Proof. cbn. intros [|]; exact I. Qed.
Lemma reads_generic loc cr : reads (CreateGenericKeyczar loc cr).
Proof. destruct loc; [|exact I]. apply reads_bind; [apply reads_reader|]. intros _. apply reads_open. Qed.
Lemma reads_location c l : reads (read_location c l).
Proof. destruct c; try apply reads_open; apply reads_bind; try apply reads_reader; intros _; apply reads_open. Qed.

(** ** Writing files *)

Lemma during_WriteFile f d l n g : during f (WriteFile d l n) g ->
  g = f \/ exists d1 d2, d = d1 ++ d2 /\ has_dir f l = true /\ set_to f g l n d1.
Proof.
  intros H. unfold WriteFile in H. apply during_cases in H as [->|[(l0 & n0 & d0 & d1 & d2 & k0 & EP & _)|(f' & p' & ES & HS)]]; [left; reflexivity | discriminate EP|]. cbn [dstep] in ES.
  destruct (has_dir f l) eqn:HD; apply pair_inj in ES as [<- <-]; [|left; apply during_Done in HS; exact HS]. right.
  assert (P : forall d1, set_to f (put (set_file f l n []) l n d1) l n d1).
  { intros d1. split.
    - intros l'. rewrite has_dir_put. apply has_dir_set.
    - intros l' n'. rewrite file_put, file_set by exact HD. rewrite !str_eqb_refl. cbn [andb]. rewrite skipn_nil, app_nil_r.
      rewrite file_set by exact HD. destruct (str_eqb l l' && str_eqb n n'); reflexivity. }
  apply during_cases in HS as [->|[(l0 & n0 & d0 & d1 & d2 & k0 & EP & -> & ->)|(f' & p' & ES & HS')]].
  - exists [], d. split; [reflexivity|]. split; [reflexivity|]. split; [intros l'; apply has_dir_set|].
    intros l' n'. rewrite file_set by exact HD. reflexivity.
  - injection EP as <- <- -> _. exists d1, d2. split; [reflexivity|]. split; [reflexivity|]. apply P.
  - cbn [dstep] in ES. apply pair_inj in ES as [<- <-]. apply during_Done in HS' as ->. exists d, []. rewrite app_nil_r. split; [reflexivity|]. split; [reflexivity|]. apply P.
Qed.

(** The moment just after opening. *)
Lemma during_opened f d l n : has_dir f l = true -> exists g, during f (WriteFile d l n) g /\ set_to f g l n [].
Proof.
  intros HD. exists (set_file f l n []). split.
  - eapply DurStep; [cbn [WriteFile dstep]; rewrite HD; reflexivity|]. constructor.
  - split; [intros l'; apply has_dir_set|]. intros l' n'. rewrite file_set by exact HD. reflexivity.
Qed.

(** A state between [f] and the disk on which all of [ws] are written to [l]: the first ones are
    there, the next may be there in part, the others are not. *)
Definition partly (f g : disk) (l : str) (ws : list (str * str)) : Prop :=
  (forall l', has_dir g l' = has_dir f l') /\
  exists ws1 ws2, ws = ws1 ++ ws2 /\
    (forall n s, In (n, s) ws1 -> file g l n = Some s) /\
    ((forall l' n', l' <> l \/ ~ In n' (map fst ws1) -> file g l' n' = file f l' n') \/
     (exists n s ws3 d1 d2, ws2 = (n, s) :: ws3 /\ s = d1 ++ d2 /\ d2 <> [] /\ file g l n = Some d1 /\
        forall l' n', l' <> l \/ ~ In n' (n :: map fst ws1) -> file g l' n' = file f l' n')).

Definition key_text (k : key) : str := dumps (key_json k).
Definition key_writes (objs : list kversion) (vk : list (nat * key)) : list (str * str) :=
  map (fun p => (key_file (num_of objs p), key_text (snd p))) vk.

Lemma key_writes_nodup objs vk : NoDup (map (num_of objs) vk) -> NoDup (map fst (key_writes objs vk)).
Proof.
  intros ND. unfold key_writes. rewrite map_map. cbn [fst]. rewrite <- (map_map (num_of objs) key_file).
  apply FinFun.Injective_map_NoDup; [intros a b; apply key_file_inj | exact ND].
Qed.

Lemma partly_now f l ws : partly f f l ws.
Proof. split; [reflexivity|]. exists [], ws. split; [reflexivity|]. split; [intros n s []|]. left. reflexivity. Qed.

Lemma partly_next f f1 g l n s ws : set_to f f1 l n s -> ~ In n (map fst ws) -> partly f1 g l ws -> partly f g l ((n, s) :: ws).
Proof.
  intros S NI (HD & ws1 & ws2 & -> & A & B). split; [intros l'; rewrite HD; apply (proj1 S)|]. exists ((n, s) :: ws1), ws2. split; [reflexivity|].
  rewrite map_app in NI.
  assert (Fn : file g l n = Some s).
  { rewrite <- (set_to_this _ _ _ _ _ S). destruct B as [B|(n2 & s2 & ws3 & d1 & d2 & -> & _ & _ & _ & B)]; apply B; right.
    - intros C. apply NI, in_or_app. left. exact C.
    - intros [C|C]; apply NI, in_or_app; [right; left; exact C | left; exact C]. }
  split; [intros n' s' [E|HI]; [injection E as <- <-; exact Fn | apply (A n' s' HI)]|].
  destruct B as [B|(n2 & s2 & ws3 & d1 & d2 & -> & -> & ND & F2 & B)].
  - left. intros l' n' D. rewrite B; [apply (set_to_other _ _ _ _ _ _ _ S)|]; (destruct D as [D|D]; [left; exact D | right; intros C; apply D]); [left; auto | right; exact C].
  - right. exists n2, (d1 ++ d2), ws3, d1, d2. repeat (split; [assumption || reflexivity|]).
    intros l' n' D. rewrite B; [apply (set_to_other _ _ _ _ _ _ _ S)|]; (destruct D as [D|D]; [left; exact D | right; intros C; apply D]).
    + right. left. auto.
    + destruct C as [C|C]; [left; exact C | right; right; exact C].
Qed.

Lemma partly_part f g l n s d1 d2 ws : set_to f g l n d1 -> s = d1 ++ d2 -> partly f g l ((n, s) :: ws).
Proof.
  intros S E. split; [apply (proj1 S)|]. destruct d2 as [|b d2].
  - rewrite app_nil_r in E. subst s. exists [(n, d1)], ws. split; [reflexivity|].
    split; [intros n' s' [E|[]]; injection E as <- <-; apply (set_to_this _ _ _ _ _ S)|]. left.
    intros l' n' D. apply (set_to_other _ _ _ _ _ _ _ S). destruct D as [D|D]; [left; exact D | right; intros ->; apply D; left; reflexivity].
  - exists [], ((n, s) :: ws). split; [reflexivity|]. split; [intros n' s' []|]. right.
    exists n, s, ws, d1, (b :: d2). split; [reflexivity|]. split; [exact E|]. split; [discriminate|]. split; [apply (set_to_this _ _ _ _ _ S)|].
    intros l' n' D. apply (set_to_other _ _ _ _ _ _ _ S). destruct D as [D|D]; [left; exact D | right; intros ->; apply D; left; reflexivity].
Qed.

Lemma during_write_keys l objs es : forall vk i f g, has_dir f l = true -> Forall (fun p => key_wf (snd p)) vk -> NoDup (map (num_of objs) vk) ->
  during f (write_keys l objs vk None es i) g -> partly f g l (key_writes objs vk).
Proof.
  induction vk as [|[o k] vk IH]; intros i f g HD W ND H; cbn [write_keys] in H; [apply during_Done in H as ->; apply partly_now|].
  pose proof (key_writes_nodup _ _ ND) as ND'. cbn [key_writes map fst snd] in *.
  apply during_bind in H as [H|(f1 & [] & HX & H)].
  - unfold WriteKey, pure in H. rewrite (key_str_eq k (Forall_inv W)) in H. cbn [pbind] in H. apply during_WriteFile in H as [->|(d1 & d2 & ED & _ & S)]; [apply partly_now|].
    apply (partly_part _ _ _ _ _ d1 d2 _ S ED).
  - rewrite exec_WriteKey in HX. unfold stored in HX. rewrite (key_str_eq k (Forall_inv W)) in HX. cbn [bind] in HX.
    destruct (WriteFile_ok f (dumps (key_json k)) l (key_file (v_num (deref objs o))) HD) as (f2 & E2 & S2). rewrite E2 in HX. apply pair_inj in HX as [<- _].
    apply (partly_next f f2 g l _ _ _ S2).
    + inversion ND'; assumption.
    + apply (IH (S i) f2 g); [rewrite (proj1 S2); exact HD | apply (Forall_inv_tail W) | inversion ND; assumption | exact H].
Qed.

Definition meta_text (ks : keyset) (enc : option keyset) : str :=
  dumps (meta_json (ks_meta (written ks enc)) (map version_json (meta_versions (ks_meta ks)))).
Definition set_writes (ks : keyset) : list (str * str) := (meta_file, meta_text ks None) :: key_writes (ks_objs ks) (ks_vkeys ks).

Lemma set_writes_nodup ks : inv ks -> NoDup (map fst (set_writes ks)).
Proof.
  intros I. cbn [set_writes map fst]. constructor; [|apply key_writes_nodup, nums_NoDup, I].
  unfold key_writes. rewrite map_map. cbn [fst]. intros C. apply in_map_iff in C as (p & E & _). apply (key_file_meta _ E).
Qed.

Lemma during_WriteSet ks l es f g : inv ks -> keys_wf ks -> has_dir f l = true -> during f (WriteSet ks l None es) g -> partly f g l (set_writes ks).
Proof.
  intros I W HD H. unfold WriteSet, WriteMetadata, pure in H. rewrite meta_str_eq in H. cbn [pbind] in H.
  change (dumps _) with (meta_text ks None) in H. apply during_bind in H as [H|(f1 & [] & HX & H)].
  - apply during_WriteFile in H as [->|(d1 & d2 & ED & _ & S)]; [apply partly_now | apply (partly_part _ _ _ _ _ d1 d2 _ S ED)].
  - destruct (WriteFile_ok f (meta_text ks None) l meta_file HD) as (f2 & E2 & S2). rewrite E2 in HX. apply pair_inj in HX as [<- _].
    apply (partly_next f f2 g l _ _ _ S2).
    + pose proof (set_writes_nodup ks I) as ND. inversion ND; assumption.
    + apply (during_write_keys l (ks_objs ks) es _ 0 f2 g); [rewrite (proj1 S2); exact HD | exact W | apply nums_NoDup, I | exact H].
Qed.

Lemma write_keys_done l objs es : forall vk i f g, has_dir f l = true -> Forall (fun p => key_wf (snd p)) vk ->
  NoDup (map (num_of objs) vk) -> exec (write_keys l objs vk None es i) f = (g, Ok tt) -> forall n s, In (n, s) (key_writes objs vk) -> file g l n = Some s.
Proof.
  intros vk i f g HD W ND H n s HI. destruct (write_keys_spec l objs None es vk i f g (Ok tt) HD H ND) as (_ & _ & _ & S).
  apply in_map_iff in HI as (p & E & HI). injection E as <- <-. destruct (S eq_refl p HI) as (e & s & ES & EF).
  unfold stored in ES. rewrite (key_str_eq (snd p) (proj1 (Forall_forall _ _) W p HI)) in ES. apply Ok_inj in ES as <-. exact EF.
Qed.

(** Loading depends only on the files. *)
Lemma load_keys_ext rd rd' t : (forall n, rd_key rd n = rd_key rd' n) -> forall vs o p vk hk, load_keys rd t o vs p vk hk = load_keys rd' t o vs p vk hk.
Proof.
  intros E. induction vs as [|v vs IH]; intros o p vk hk; cbn [load_keys]; [reflexivity|]. rewrite E.
  destruct (if status_eqb _ _ then _ else _) as [p'|]; cbn [bind]; [|reflexivity]. destruct (rd_key rd' (v_num v)) as [s|]; cbn [bind]; [|reflexivity].
  destruct (ReadKey t s) as [k|]; cbn [bind]; [|reflexivity]. destruct (key_hash_id k); cbn [bind]; [apply IH | reflexivity].
Qed.
Lemma open_same_files c l cr f g : (forall n, file g l n = file f l n) -> open_keyset c (disk_reader g l cr) = open_keyset c (disk_reader f l cr).
Proof.
  intros E. assert (EM : rd_meta (disk_reader g l cr) = rd_meta (disk_reader f l cr)) by (destruct cr; cbn; rewrite E; reflexivity).
  assert (EK : forall n, rd_key (disk_reader g l cr) n = rd_key (disk_reader f l cr) n) by (intros n; destruct cr; cbn; rewrite E; reflexivity).
  assert (EE : rd_encrypted (disk_reader g l cr) = rd_encrypted (disk_reader f l cr)) by (destruct cr; reflexivity).
  unfold open_keyset. rewrite EM. destruct (rd_meta (disk_reader f l cr)) as [s|]; cbn [bind]; [|reflexivity]. destruct (meta_Read s) as [m|]; cbn [bind]; [|reflexivity].
  rewrite EE. destruct (negb _); [reflexivity|]. destruct (_ && _); [reflexivity|]. rewrite (load_keys_ext _ _ _ EK). reflexivity.
Qed.

(** The key files of a set that loads. *)
Lemma opened_files c l f ks n s k : open_keyset c (file_reader f l) = Ok ks -> ring_of ks n = Some (s, k) ->
  exists x, file f l (key_file n) = Some x /\ ReadKey (ks_type ks) x = Ok k /\ exists h, key_hash_id k = Ok h.
Proof.
  intros H HR. pose proof (inv_open _ _ _ H) as I. pose proof H as H'. apply open_ok in H' as (s0 & m & ls & E1 & E2 & _ & _ & _ & _ & _ & ET & _).
  destruct (ring_entry ks n s k I HR) as (o & _ & HK & _). destruct (inv_hash1 ks I o k (assoc_In Nat.eqb_eq HK)) as (h & k' & HH & _).
  pose proof (open_ring _ _ _ _ _ H E1 E2 n) as ER. rewrite HR in ER. destruct (assoc Z.eqb (m_versions m) n); [|discriminate].
  cbn [file_reader rd_key] in ER. destruct (file f l (key_file n)) as [x|]; cbn [answer bind] in ER; [|discriminate].
  destruct (ReadKey (m_type m) x) as [k2|] eqn:ERK; [|discriminate]. exists x. split; [reflexivity|]. rewrite ET. split; [congruence | exists h; exact HH].
Qed.

Lemma NoDup_assoc_unique {A B} (l : list (A * B)) a b c : NoDup (map fst l) -> In (a, b) l -> In (a, c) l -> b = c.
Proof.
  induction l as [|[x y] l IH]; [intros _ []|]. cbn [map fst]. intros ND H1 H2. apply NoDup_cons_iff in ND as [NI ND]. destruct H1 as [E1|H1], H2 as [E2|H2].
  - congruence.
  - exfalso. injection E1 as -> ->. apply NI. apply (in_map fst) in H2. exact H2.
  - exfalso. injection E2 as -> ->. apply NI. apply (in_map fst) in H1. exact H1.
  - apply (IH ND H1 H2).
Qed.
