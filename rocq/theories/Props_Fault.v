(** * Props_Fault: system calls that fail (C67). *)
From Coq Require Import Strings.String.
From Coq Require Import List ZArith NArith Bool Lia ZifyBool ZifyNat ZifyN.
From Coq.Init Require Import Byte.
From Verif Require Import PyBase PyFacts Base64 Util Json JsonFacts KeyInfo SymKeys AsymKeys Keys KeysFacts KeyData Keyczar KeyRing
  KeyczarFacts Props_Keyset Props_Sign Disk Keyczart DiskFacts CrashFacts Props_Disk Props_Tool GenKeySet Fault FaultFacts.
Import ListNotations.
Local Open Scope Z_scope.
Ltac Zify.zify_post_hook ::= idtac.

(** Whatever calls fail: the tool has done exactly what it does without failures, or it ends with
    a KeyczarError or an IOError; success is never reported falsely.  In the latter case the disk is
    one that a crash could have left (C48, C62). *)
Theorem C67_failures_are_reported : forall rs argv ds es f g r, let p := main (GenKeySet rs) argv ds es in
  faulty false f p g r ->
  exec p f = (g, r) \/ (during f p g /\ (r = Raise KeyczarError \/ r = Raise IOError)).
Proof.
  intros rs argv ds es f g r p H.
  assert (S : strict false p) by (apply strict_main; [apply strict_GenKeySet | discriminate]).
  destruct (strict_faulty false p f g r S H) as [E|(D & e & -> & [->| ->])]; [left; exact E | right; split; [exact D | left; reflexivity] | right; split; [exact D | right; reflexivity]].
Qed.
Print Assumptions C67_failures_are_reported.

(** All commands but create and genkey also when [os.path.exists] wrongly answers False. *)
Theorem C67_when_exists_fails : forall gk a0 rest ds es f g r, GetCommand a0 <> Ok CREATE -> GetCommand a0 <> Ok GENKEY ->
  let p := main gk (a0 :: rest) ds es in faulty true f p g r ->
  exec p f = (g, r) \/ (during f p g /\ (r = Raise KeyczarError \/ r = Raise IOError)).
Proof.
  intros gk a0 rest ds es f g r NC NG p H.
  assert (E : p = main (fun _ => Done (Ok tt)) (a0 :: rest) ds es).
  { unfold p. cbn [main]. destruct (GetCommand a0) as [[]|e]; cbn [pure pbind]; try reflexivity. contradiction (NG eq_refl). }
  assert (S : strict true p).
  { rewrite E. apply strict_main; [intros loc; exact I|]. intros _ b rest' EQ. injection EQ as <- <-. exact NC. }
  destruct (strict_faulty true p f g r S H) as [X|(D & e & -> & [->| ->])]; [left; exact X | right; split; [exact D | left; reflexivity] | right; split; [exact D | right; reflexivity]].
Qed.
Print Assumptions C67_when_exists_fails.

(** Opening a set: the set that is there, or an exception.  Never another set, and nothing changes. *)
Theorem C67_opening : forall ex c l cr f g r, faulty ex f (open_files c l cr) g r ->
  g = f /\ (r = snd (exec (open_files c l cr) f) \/ r = Raise KeyczarError \/ r = Raise IOError).
Proof.
  intros ex c l cr f g r H. destruct (strict_faulty ex _ f g r (strict_open ex c l cr) H) as [E|(D & e & -> & X)].
  - pose proof (exec_reads _ (reads_open c l cr) f) as R. rewrite E in R |- *. cbn [fst snd] in *. split; [exact R | left; reflexivity].
  - split; [apply (during_reads _ (reads_open c l cr) f g D)|]. right. destruct X as [->| ->]; [left | right]; reflexivity.
Qed.
Print Assumptions C67_opening.

(** A key set after a command some of whose calls failed: as C48 says, it is the old or the new
    set unless a file is torn or the file of a new key is missing. *)
Theorem C67_key_sets_after_failures_partial : forall l f ks c es g' r, loadable f l ks -> text_ok (ks_name ks) -> kcmd_ok c ->
  faulty true f (kcmd_prog l c es) g' r ->
  (forall l' n', l' <> l -> file g' l' n' = file f l' n') /\
  (r = Ok tt -> exists ks' r', loadable g' l ks' /\ ring_cmd (ks_type ks) (ring_of ks) c r' /\ forall n, ring_of ks' n = r' n) /\
  ((exists ks', loadable g' l ks' /\
     ((forall n, ring_of ks' n = ring_of ks n) \/ exists r', ring_cmd (ks_type ks) (ring_of ks) c r' /\ forall n, ring_of ks' n = r' n)) \/
   exists g, exec (kcmd_prog l c es) f = (g, Ok tt) /\
     (torn g' g l \/
      exists n s size ds, c = CmdAddKey s size ds /\ ring_of ks n = None /\ file g l (key_file n) <> None /\
        file g' l meta_file = file g l meta_file /\ file g' l (key_file n) = file f l (key_file n))).
Proof.
  intros l f ks c es g' r HL HN HC H.
  assert (S : strict true (kcmd_prog l c es)) by (destruct c; cbn [kcmd_prog]; [apply strict_AddKey | apply strict_Change | apply strict_Change | apply strict_Revoke]).
  pose proof (strict_faulty true _ f g' r S H) as SF.
  assert (HD : during f (kcmd_prog l c es) g') by (destruct SF as [E|(D & _)]; [apply (during_end _ _ _ _ E) | exact D]).
  destruct (exec (kcmd_prog l c es) f) as [g [[]|e]] eqn:EX.
  - destruct (C48_every_moment_partial l f ks c es g g' HL HN HC EX HD) as (A & B). split; [exact A|]. split.
    + intros ->. destruct SF as [E|(_ & e & E & _)]; [|discriminate E]. apply pair_inj in E as [<- _].
      destruct (C47_command l f ks c es g (Ok tt) HL HN HC EX) as [(_ & (ks' & r' & L & _ & _ & _ & RC & RE) & _)|((e & C) & _)]; [|discriminate C].
      exists ks', r'. auto.
    + destruct B as [B|[B|B]]; [right; exists g; split; [reflexivity | left; exact B] | right; exists g; split; [reflexivity | right; exact B] | left; exact B].
  - assert (g' = f) as -> by (apply (C48_failing_commands l f ks c es g e g' HL HN HC EX HD)). split; [reflexivity|]. split.
    + intros ->. destruct SF as [E|(_ & e' & E & _)]; [apply pair_inj in E as [_ E]|]; discriminate E.
    + left. exists ks. split; [exact HL | left; reflexivity].
Qed.
Print Assumptions C67_key_sets_after_failures_partial.

(** REFUTED, that a failure leaves the old set or the new one: if the disk is full when the metadata
    is written, the metadata is lost, and the set never opens again.  This holds for every set and every
    command that would succeed. *)
Lemma full_update ks l es f : has_dir f l = true ->
  exists g, faulty false f (UpdateGenericKeyczar ks (Some l) None es) g (Raise KeyczarError) /\ file g l meta_file = Some [].
Proof.
  intros HD. exists (put (set_file f l meta_file []) l meta_file []). split.
  - cbn [UpdateGenericKeyczar]. eapply faulty_bind_r; [rewrite (proj2 (C58_factories f l)), HD; reflexivity|].
    unfold WriteSet, WriteMetadata, pure. rewrite meta_str_eq. cbn [pbind]. apply faulty_bind_raise.
    eapply FaultNone; [discriminate | cbn [WriteFile dstep]; rewrite HD; reflexivity|]. cbv iota. eapply FaultWrite. reflexivity.
  - rewrite file_put, !str_eqb_refl, file_set, !str_eqb_refl by exact HD. reflexivity.
Qed.
Theorem C67_full_disk_refuted : forall l f ks c es g, loadable f l ks -> text_ok (ks_name ks) -> kcmd_ok c ->
  exec (kcmd_prog l c es) f = (g, Ok tt) ->
  exists g', faulty false f (kcmd_prog l c es) g' (Raise KeyczarError) /\
    forall cl cr, exists e, exec (open_files cl l cr) g' = (g', Raise e).
Proof.
  intros l f ks c es g HL HN HC HX. pose proof (loadable_open _ _ _ HL) as HO. pose proof (opened_dir f l None ks _ HO) as HD.
  assert (EG : exec (CreateGenericKeyczar (Some l) None) f = (f, Ok ks)) by (rewrite exec_generic, HD; cbn [disk_reader]; rewrite HO; reflexivity).
  assert (G : exists g', faulty false f (kcmd_prog l c es) g' (Raise KeyczarError) /\ file g' l meta_file = Some []).
  { assert (CH : forall ch n r0 g0, exec (ChangeCmd ch (Some l) n es) f = (g0, Ok r0) -> exists g', faulty false f (ChangeCmd ch (Some l) n es) g' (Raise KeyczarError) /\ file g' l meta_file = Some []).
    { intros ch n r0 g0 HX0. rewrite (exec_change _ _ _ _ _ _ HL) in HX0. destruct (n <? 0) eqn:EN; [apply pair_inj in HX0 as [_ HX0]; discriminate|].
      destruct (ch ks n) as [ks' [[]|e]] eqn:EC; [|apply pair_inj in HX0 as [_ HX0]; discriminate]. destruct (full_update ks' l es f HD) as (g' & F & M). exists g'. split; [|exact M].
      unfold ChangeCmd. eapply faulty_bind_r; [exact EG|]. cbv beta. rewrite EN, EC. cbn [pure pbind]. exact F. }
    destruct c as [s size ds|n|n|n]; cbn [kcmd_prog] in *.
    - rewrite (exec_add l None s size ds es f ks HO) in HX. destruct (AddVersion ks ds s _) as [ks' [[]|e]] eqn:EA; [|apply pair_inj in HX as [_ HX]; discriminate].
      destruct (full_update ks' l es f HD) as (g' & F & M). exists g'. split; [|exact M]. unfold AddKeyCmd. eapply faulty_bind_r; [exact EG|]. cbv beta. rewrite EA. cbn [pure pbind]. exact F.
    - apply (CH Promote n tt g HX).
    - apply (CH Demote n tt g HX).
    - unfold RevokeCmd in HX |- *. rewrite exec_bind in HX. destruct (exec (ChangeCmd Revoke (Some l) n es) f) as [g1 [[]|e]] eqn:E1; [|apply pair_inj in HX as [_ HX]; discriminate].
      destruct (CH Revoke n tt g1 E1) as (g' & F & M). exists g'. split; [apply faulty_bind_raise; exact F | exact M]. }
  destruct G as (g' & F & M). exists g'. split; [exact F|]. intros cl cr. rewrite exec_open. assert (E : rd_meta (disk_reader g' l cr) = Ok []).
  { assert (E0 : rd_meta (disk_reader g' l cr) = answer (file g' l meta_file)) by (destruct cr; reflexivity). rewrite E0, M. reflexivity. }
  unfold open_keyset. rewrite E. cbn [bind]. destruct (meta_Read []) as [m|e] eqn:EM; [vm_compute in EM; discriminate EM|]. exists e. reflexivity.
Qed.
Print Assumptions C67_full_disk_refuted.

(** REFUTED for create if [os.path.exists] wrongly answers False: it reports success, and has replaced
    the metadata of the set that was there by that of an empty one. *)
Theorem C67_create_overwrites_refuted : forall f l ks name p a t, loadable f l ks -> text_ok name -> implied p a t ->
  exists g ks', faulty true f (Create (Some l) name (Some p) a) g (Ok tt) /\ loadable g l ks' /\ forall n, ring_of ks' n = None.
Proof.
  intros f l ks name p a t HL HN HI. pose proof (opened_dir f l None ks _ (loadable_open _ _ _ HL)) as HD. pose proof (implied_type p a t HI) as ET.
  destruct (WriteFile_ok f (dumps (meta_json (MkMeta name p t false []) [])) l meta_file HD) as (g & EG & SG).
  destruct (open_from_disk g l None (MkMeta name p t false []) (fun _ => None) GenericKeyczar) as (ks' & O1 & O2 & O3).
  - split; constructor.
  - exact HN.
  - intros i j v w H. destruct i; discriminate.
  - reflexivity.
  - discriminate.
  - apply (set_to_this _ _ _ _ _ SG).
  - intros n v [].
  - exists g, ks'. split; [|split; [unfold loadable; rewrite exec_open, O1; reflexivity | exact O3]].
    unfold Create, pure. rewrite ET. cbn [pbind]. eapply faulty_bind_r; [rewrite (proj2 (C58_factories f l)), HD; reflexivity|].
    unfold WriteMetadata. apply FaultIsFile; [reflexivity|]. cbv iota. unfold pure. rewrite meta_str_eq. cbn [pbind]. apply faulty_exec, EG.
Qed.
Print Assumptions C67_create_overwrites_refuted.

(** Promotion in a set on disk: a run in which reading the metadata fails, and, by
    [C67_full_disk_refuted], one in which writing them fails.  Both are also runs of the tool. *)
Example C67_case : forall rs, loadable test_disk (bs "/hmac") hmac_set /\ text_ok (ks_name hmac_set) /\ kcmd_ok (CmdPromote 1) /\
  (exists g, exec (kcmd_prog (bs "/hmac") (CmdPromote 1) one_env) test_disk = (g, Ok tt)) /\
  faulty false test_disk (kcmd_prog (bs "/hmac") (CmdPromote 1) one_env) test_disk (Raise KeyczarError) /\
  faulty false test_disk (main (GenKeySet rs) [bs "promote"; bs "--location=/hmac"; bs "--version=1"] [] one_env) test_disk (Raise KeyczarError) /\
  GetCommand (bs "promote") <> Ok CREATE /\ GetCommand (bs "promote") <> Ok GENKEY /\
  faulty false test_disk (open_files Signer (bs "/hmac") None) test_disk (Raise KeyczarError) /\
  implied SIGN_AND_VERIFY None HMAC_SHA1.
Proof.
  intros rs. assert (OP : forall c, faulty false test_disk (open_files c (bs "/hmac") None) test_disk (Raise KeyczarError)).
  { intros c. unfold open_files. cbn [pbind]. apply FaultRead. cbn. apply FaultDone. }
  assert (PR : faulty false test_disk (kcmd_prog (bs "/hmac") (CmdPromote 1) one_env) test_disk (Raise KeyczarError)).
  { cbn [kcmd_prog]. unfold PromoteCmd, ChangeCmd. apply faulty_bind_raise. unfold CreateGenericKeyczar.
    eapply faulty_bind_r; [rewrite (proj1 (C58_factories _ _)); reflexivity|]. apply OP. }
  split; [apply hmac_loadable|]. split; [apply (tx_ok "Test")|]. split; [exact I|].
  split; [eexists; vm_compute; reflexivity|]. split; [exact PR|]. split; [|split; [|split; [|split; [apply OP | constructor]]]].
  - change (main (GenKeySet rs) [bs "promote"; bs "--location=/hmac"; bs "--version=1"] [] one_env) with (kcmd_prog (bs "/hmac") (CmdPromote 1) one_env). exact PR.
  - intros C. vm_compute in C. discriminate C.
  - intros C. vm_compute in C. discriminate C.
Qed.
