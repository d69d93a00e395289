(** * FaultFacts: programs that stop at the first failing call. *)
From Coq Require Import Strings.String.
From Coq Require Import List ZArith NArith Bool Lia.
From Coq.Init Require Import Byte.
From Verif Require Import PyBase PyFacts Base64 Util Json KeyInfo SymKeys AsymKeys Keys KeyData Keyczar Disk Keyczart DiskFacts CrashFacts GenKeySet Fault.
Import ListNotations.
Local Open Scope Z_scope.

(** What a failing call makes a program raise. *)
Definition io_exn (e : exn) : Prop := e = KeyczarError \/ e = IOError.
Definition gives_up {A} (p : prog A) : Prop := exists e, p = Done (Raise e) /\ io_exn e.

Fixpoint strict {A} (ex : bool) (p : prog A) : Prop :=
  match p with
  | Done _ => True
  | Read l n k => gives_up (k None) /\ forall o, strict ex (k o)
  | IsDir l k => (ex = true -> gives_up (k false)) /\ forall b, strict ex (k b)
  | IsFile l n k => ex = false /\ forall b, strict ex (k b)
  | OpenW l n k => gives_up (k false) /\ forall b, strict ex (k b)
  | Write l n d k => strict ex k
  | Remove l n k => gives_up (k false) /\ forall b, strict ex (k b)
  | List l k => gives_up (k None) /\ forall o, strict ex (k o)
  end.

Lemma gives_up_bind {A B} (p : prog A) (q : A -> prog B) : gives_up p -> gives_up (pbind p q).
Proof. intros (e & -> & H). exists e. split; [reflexivity | exact H]. Qed.

Lemma strict_bind {A B} ex (p : prog A) (q : A -> prog B) : strict ex p -> (forall a, strict ex (q a)) -> strict ex (pbind p q).
Proof.
  intros HP HQ. revert HP. induction p as [[a|e]|l n k IH|l k IH|l n k IH|l n k IH|l n d k IH|l n k IH|l k IH]; cbn [strict pbind]; intros HP.
  1: apply HQ.
  1: exact I.
  all: try (apply IH, HP).
  all: destruct HP as [H1 H2]; split; [|intros x; apply IH, H2].
  all: try (apply gives_up_bind, H1).
  - intros E. apply gives_up_bind, H1, E.
  - exact H1.
Qed.

Lemma faulty_gives_up {A} ex f (p : prog A) g r : gives_up p -> faulty ex f p g r -> g = f /\ exists e, r = Raise e /\ io_exn e.
Proof.
  intros (e & -> & He) H. inversion H as [f0 r0|f0 p0 f' p' g0 r0 ND| | | | | | |]; subst; [split; [reflexivity | exists e; split; [reflexivity | exact He]] | destruct (ND _ eq_refl)].
Qed.

Lemma exec_dstep {A} f (p : prog A) f' p' : (forall x, p <> Done x) -> dstep f p = (f', p') -> exec p f = exec p' f'.
Proof.
  intros ND S. destruct p as [r|l n k|l k|l n k|l n k|l n d k|l n k|l k]; cbn [dstep exec] in *; [destruct (ND r eq_refl)| | | | | | |];
    try (apply pair_inj in S as [<- <-]; reflexivity).
  - destruct (has_dir f l); apply pair_inj in S as [<- <-]; reflexivity.
  - destruct (file f l n); apply pair_inj in S as [<- <-]; reflexivity.
Qed.

Lemma strict_dstep {A} ex f (p : prog A) f' p' : strict ex p -> dstep f p = (f', p') -> strict ex p'.
Proof.
  intros HS S. destruct p as [r|l n k|l k|l n k|l n k|l n d k|l n k|l k]; cbn [dstep strict] in *;
    try (apply pair_inj in S as [<- <-]; try exact HS; apply HS).
  - destruct (has_dir f l); apply pair_inj in S as [<- <-]; apply HS.
  - destruct (file f l n); apply pair_inj in S as [<- <-]; apply HS.
Qed.

(** A program that stops at the first failing call has done what it does without failures, or it
    has raised an exception, and then the disk is one that a crash could have left. *)
Theorem strict_faulty {A} ex (p : prog A) f g r : strict ex p -> faulty ex f p g r ->
  exec p f = (g, r) \/ (during f p g /\ exists e, r = Raise e /\ io_exn e).
Proof.
  intros HS H. induction H as [f r|f p f' p' g r ND S H IH|f l n k g r H IH|f l n k g r H IH|f l n d d1 d2 k E|f l n k g r H IH|f l k g r H IH|f l k g r E H IH|f l n k g r E H IH].
  1: left; reflexivity.
  1:{ destruct (IH (strict_dstep _ _ _ _ _ HS S)) as [X|[D R]]; [left; rewrite (exec_dstep f p f' p' ND S); exact X | right; split; [apply (DurStep f p f' p' g S D) | exact R]]. }
  3:{ right. split; [apply (DurPart f l n d d1 d2 k E) | exists KeyczarError; split; [reflexivity | left; reflexivity]]. }
  all: cbn [strict] in HS; destruct HS as [H1 H2]; right.
  all: try (destruct (faulty_gives_up _ _ _ _ _ H1 H) as (-> & R); split; [constructor | exact R]).
  - destruct (faulty_gives_up _ _ _ _ _ (H1 E) H) as (-> & R). split; [constructor | exact R].
  - congruence.
Qed.

(** Without failures a program still runs. *)
Lemma faulty_exec {A} ex (p : prog A) : forall f g r, exec p f = (g, r) -> faulty ex f p g r.
Proof.
  induction p as [r0|l n k IH|l k IH|l n k IH|l n k IH|l n d k IH|l n k IH|l k IH]; intros f g r H; cbn [exec] in H.
  1: apply pair_inj in H as [<- <-]; constructor.
  1-3,7: (eapply FaultNone; [discriminate | reflexivity |]; apply IH, H).
  - destruct (has_dir f l) eqn:HD; (eapply FaultNone; [discriminate | cbn [dstep]; rewrite HD; reflexivity |]; apply IH, H).
  - eapply FaultNone; [discriminate | reflexivity |]; apply IH, H.
  - destruct (file f l n) eqn:HD; (eapply FaultNone; [discriminate | cbn [dstep]; rewrite HD; reflexivity |]; apply IH, H).
Qed.

Lemma faulty_bind_r {A B} ex (p : prog A) (q : A -> prog B) : forall f f1 a g r, exec p f = (f1, Ok a) -> faulty ex f1 (q a) g r -> faulty ex f (pbind p q) g r.
Proof.
  induction p as [[x|e]|l n k IH|l k IH|l n k IH|l n k IH|l n d k IH|l n k IH|l k IH]; intros f f1 a g r HX H; cbn [exec] in HX; cbn [pbind].
  - apply pair_inj in HX as [<- HX]. apply Ok_inj in HX as <-. exact H.
  - apply pair_inj in HX as [_ HX]. discriminate.
  - eapply FaultNone; [discriminate | reflexivity|]. apply (IH _ _ _ _ _ _ HX H).
  - eapply FaultNone; [discriminate | reflexivity|]. apply (IH _ _ _ _ _ _ HX H).
  - eapply FaultNone; [discriminate | reflexivity|]. apply (IH _ _ _ _ _ _ HX H).
  - destruct (has_dir f l) eqn:HD; (eapply FaultNone; [discriminate | cbn [dstep]; rewrite HD; reflexivity|]); apply (IH _ _ _ _ _ _ HX H).
  - eapply FaultNone; [discriminate | reflexivity|]. apply (IH _ _ _ _ _ HX H).
  - destruct (file f l n) eqn:HD; (eapply FaultNone; [discriminate | cbn [dstep]; rewrite HD; reflexivity|]); apply (IH _ _ _ _ _ _ HX H).
  - eapply FaultNone; [discriminate | reflexivity|]. apply (IH _ _ _ _ _ _ HX H).
Qed.

Lemma faulty_bind_raise {A B} ex (p : prog A) (q : A -> prog B) f g e : faulty ex f p g (Raise e) -> faulty ex f (pbind p q) g (Raise e).
Proof.
  intros H. remember (Raise e) as r eqn:ER. revert ER. induction H as [f r|f p f' p' g r ND S H IH|f l n k g r H IH|f l n k g r H IH|f l n d d1 d2 k E|f l n k g r H IH|f l k g r H IH|f l k g r E H IH|f l n k g r E H IH]; intros ER; try subst r; cbn [pbind].
  1: constructor.
  1:{ destruct p as [[a|x]|l n k|l k|l n k|l n k|l n d k|l n k|l k]; cbn [dstep] in S; [destruct (ND _ eq_refl) | destruct (ND _ eq_refl)| | | | | | |]; cbn [pbind].
      1-3,7: apply pair_inj in S as [<- <-]; eapply FaultNone; [discriminate | reflexivity | apply IH; reflexivity].
      - destruct (has_dir f l) eqn:HD; apply pair_inj in S as [<- <-]; (eapply FaultNone; [discriminate | cbn [dstep]; rewrite HD; reflexivity | apply IH; reflexivity]).
      - apply pair_inj in S as [<- <-]; eapply FaultNone; [discriminate | reflexivity | apply IH; reflexivity].
      - destruct (file f l n) eqn:HD; apply pair_inj in S as [<- <-]; (eapply FaultNone; [discriminate | cbn [dstep]; rewrite HD; reflexivity | apply IH; reflexivity]). }
  - apply FaultRead, IH. reflexivity.
  - apply FaultOpen, IH. reflexivity.
  - injection ER as <-. apply (FaultWrite ex f l n d d1 d2 _ E).
  - apply FaultRemove, IH. reflexivity.
  - apply FaultList, IH. reflexivity.
  - apply FaultIsDir, IH; [exact E | reflexivity].
  - apply FaultIsFile, IH; [exact E | reflexivity].
Qed.

(** ** The programs *)

Ltac up := solve [eexists; split; [reflexivity | solve [left; reflexivity | right; reflexivity]]].

Lemma strict_pure {A} ex (r : res A) : strict ex (pure r).
Proof. exact I. Qed.
Lemma strict_WriteFile ex s l n : strict ex (WriteFile s l n).
Proof. split; [up|]. intros []; exact I. Qed.
Lemma strict_ReadFile ex l n : strict ex (ReadFile l n).
Proof. split; [up|]. intros []; exact I. Qed.
Lemma strict_CreateReader ex l : strict ex (CreateReader l).
Proof. split; [intros _; up|]. intros []; exact I. Qed.
Lemma strict_CreateWriter ex l : strict ex (CreateWriter l).
Proof. split; [intros _; up|]. intros []; exact I. Qed.
Lemma strict_GetKey ex l cr n : strict ex (GetKey l cr n).
Proof. apply strict_bind; [apply strict_ReadFile|]. intros s. destruct cr; exact I. Qed.
Lemma strict_load ex l cr t : forall vs o p vk hk, strict ex (load_files l cr t o vs p vk hk).
Proof.
  induction vs as [|v vs IH]; intros o p vk hk; cbn [load_files]; [exact I|].
  apply strict_bind; [destruct (status_eqb _ _); [destruct p|]; exact I|]. intros p'.
  apply strict_bind; [apply strict_GetKey|]. intros s. apply strict_bind; [exact I|]. intros k. apply strict_bind; [exact I|]. intros h. apply IH.
Qed.
Lemma strict_open ex c l cr : strict ex (open_files c l cr).
Proof.
  apply strict_bind; [apply strict_ReadFile|]. intros s. apply strict_bind; [exact I|]. intros m.
  destruct (negb _); [exact I|]. destruct (_ && _); [exact I|]. apply strict_bind; [apply strict_load|]. intros [[p vk] hk]. exact I.
Qed.
Lemma strict_read_location ex c l : strict ex (read_location c l).
Proof. destruct c; try apply strict_open; apply strict_bind; try apply strict_CreateReader; intros _; apply strict_open. Qed.
Lemma strict_generic ex l cr : strict ex (CreateGenericKeyczar l cr).
Proof. destruct l as [l|]; [|exact I]. apply strict_bind; [apply strict_CreateReader|]. intros _. apply strict_open. Qed.
Lemma strict_WriteKey ex l k n enc e : strict ex (WriteKey l k n enc e).
Proof. apply strict_bind; [exact I|]. intros s. apply strict_bind; [destruct enc; exact I|]. intros s'. apply strict_WriteFile. Qed.
Lemma strict_write_keys ex l objs enc es : forall vk i, strict ex (write_keys l objs vk enc es i).
Proof. induction vk as [|[o k] vk IH]; intros i; cbn [write_keys]; [exact I|]. apply strict_bind; [apply strict_WriteKey|]. intros _. apply IH. Qed.
Lemma strict_WriteSet ex ks l enc es : strict ex (WriteSet ks l enc es).
Proof. apply strict_bind; [apply strict_bind; [exact I | intros s; apply strict_WriteFile]|]. intros _. apply strict_write_keys. Qed.
Lemma strict_update ex ks l enc es : strict ex (UpdateGenericKeyczar ks l enc es).
Proof. destruct l as [l|]; [|exact I]. apply strict_bind; [apply strict_CreateWriter|]. intros _. apply strict_WriteSet. Qed.
Lemma strict_AddKey ex l s cr size ds es : strict ex (AddKeyCmd l s cr size ds es).
Proof.
  apply strict_bind; [apply strict_generic|]. intros ks. destruct (AddVersion _ _ _ _) as [ks' r]. apply strict_bind; [exact I|]. intros _. apply strict_update.
Qed.
Lemma strict_Change ex ch l n es : strict ex (ChangeCmd ch l n es).
Proof.
  apply strict_bind; [apply strict_generic|]. intros ks. destruct (n <? 0); [exact I|]. destruct (ch ks n) as [ks' r].
  apply strict_bind; [exact I|]. intros _. apply strict_update.
Qed.
Lemma strict_Revoke ex l n es : strict ex (RevokeCmd l n es).
Proof.
  apply strict_bind; [apply strict_Change|]. intros _. destruct l as [l|]; [|exact I]. apply strict_bind; [apply strict_CreateWriter|]. intros _.
  split; [up|]. intros []; exact I.
Qed.
Lemma strict_export_keys ex dest objs : forall vk m, strict ex (export_keys dest objs vk m).
Proof.
  induction vk as [|[o k] vk IH]; intros m; cbn [export_keys]; [exact I|]. apply strict_bind; [exact I|]. intros pub. apply strict_bind; [exact I|]. intros s.
  apply strict_bind; [apply strict_WriteFile|]. intros _. apply IH.
Qed.
Lemma strict_PubKey ex l dest : strict ex (PubKeyCmd l dest).
Proof.
  destruct dest as [d|]; [|exact I]. apply strict_bind; [apply strict_generic|]. intros ks. apply strict_bind; [exact I|]. intros [p t].
  apply strict_bind; [apply strict_export_keys|]. intros m. apply strict_bind; [exact I|]. intros s. apply strict_WriteFile.
Qed.
Lemma strict_Create l name p a : strict false (Create l name p a).
Proof.
  destruct l as [l|]; [|exact I]. apply strict_bind; [exact I|]. intros [q t]. apply strict_bind; [apply strict_CreateWriter|]. intros _.
  split; [reflexivity|]. intros []; [exact I|]. apply strict_bind; [exact I|]. intros s. apply strict_WriteFile.
Qed.

Lemma strict_Clean l : strict false (Clean l).
Proof.
  split; [up|]. intros [names|]; [|exact I]. induction names as [|n names IH]; [exact I|]. split; [discriminate|]. intros []; [exact IH|].
  split; [up|]. intros []; [exact IH | exact I].
Qed.
Lemma strict_UseKey ex p l n cr e : strict ex (UseKey p l n cr e).
Proof.
  apply strict_bind; [apply strict_CreateReader|]. intros _. apply strict_bind; [|intros s; apply strict_WriteFile].
  destruct p; try exact I; (apply strict_bind; [apply strict_open|]; intros ks; exact I).
Qed.
Lemma strict_gen_set loc x r : strict false (gen_set loc x r).
Proof.
  destruct x as [[[name p] a] cr]. cbn [gen_set].
  apply strict_bind; [destruct cr; [apply strict_bind; [apply strict_read_location | intros ks; exact I] | exact I]|]. intros c.
  apply strict_bind; [apply strict_Clean|]. intros _. apply strict_bind; [apply strict_Create|]. intros _. apply strict_bind; [apply strict_AddKey|]. intros _.
  apply strict_bind; [apply strict_UseKey|]. intros _. apply strict_bind; [apply strict_AddKey|]. intros _. apply strict_UseKey.
Qed.
Lemma strict_GenKeySet rs loc : strict false (GenKeySet rs loc).
Proof.
  destruct loc as [l|]; [|exact I]. cbn [GenKeySet]. apply strict_bind.
  - generalize KEYSETS at 1. intros xs. generalize 0%nat. induction xs as [|x xs IH]; intros i; cbn [gen_sets]; [exact I|]. apply strict_bind; [apply strict_gen_set|]. intros _. apply IH.
  - intros _. generalize [bs "dsa"; bs "rsa-sign"]. intros ns. induction ns as [|n ns IH]; cbn [export_sets]; [exact I|]. apply strict_bind; [apply strict_PubKey|]. intros _. exact IH.
Qed.

(** The whole command line; with [ex], only the commands that do not ask whether the metadata file exists. *)
Lemma strict_main ex gk argv ds es : (forall loc, strict ex (gk loc)) -> (ex = true -> forall a0 rest, argv = a0 :: rest -> GetCommand a0 <> Ok CREATE) ->
  strict ex (main gk argv ds es).
Proof.
  intros HG HC. destruct argv as [|a0 rest]; [exact I|]. cbn [main]. destruct (GetCommand a0) as [cmd|e] eqn:EC; cbn [pure pbind]; [|exact I].
  destruct (parse_flags (a0 :: rest) []) as [fl|e]; cbn [pbind]; [|exact I]. destruct (int_flags fl) as [v z].
  destruct cmd.
  - destruct ex; [contradiction (HC eq_refl a0 rest eq_refl EC) | apply strict_Create].
  - match goal with |- strict _ (match ?x with _ => _ end) => destruct x as [s|]; [|exact I] end. apply strict_bind; [destruct (assoc _ _ CRYPTER); [apply strict_bind; [apply strict_read_location | intros ks; exact I] | exact I]|].
    intros cr. apply strict_bind; [destruct z; exact I|]. intros z'. apply strict_AddKey.
  - apply strict_PubKey.
  - apply strict_bind; [destruct v; exact I|]. intros n. apply strict_Change.
  - apply strict_bind; [destruct v; exact I|]. intros n. apply strict_Change.
  - apply strict_bind; [destruct v; exact I|]. intros n. apply strict_Revoke.
  - apply HG.
Qed.
