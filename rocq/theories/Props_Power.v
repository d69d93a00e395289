(** * Props_Power: property C80 (the power fails: what the files hold then). *)
From Coq Require Import Strings.String.
From Coq Require Import List ZArith NArith Bool Lia ZifyBool ZifyNat ZifyN.
From Coq.Init Require Import Byte.
From Verif Require Import PyBase PyFacts Base64 Util Json JsonFacts JsonSpec JsonSpecFacts KeyInfo Keys KeysFacts KeyData Keyczar KeyRing
  KeyczarFacts Props_Keyset Props_Keys Disk Keyczart DiskFacts CrashFacts Props_Disk Props_Tool Props_Cmd Props_Open Props_While.
Import ListNotations.
Local Open Scope Z_scope.
Ltac Zify.zify_post_hook ::= idtac.

(** ** Specification *)

(** [after_power_cut f qs g]: the programs [qs] run one after the other, starting on the disk [f], and at
    some time, maybe long after they have ended, the power fails.  keyczar never asks the system to put a
    file on the disk (writers.py:109-133 and util.py:458-463 open, write, close and remove), so the system is free to
    write the files in any order, or not yet: each file may hold what it held at any moment of its own,
    before, during or after the programs.  Directories are neither made nor removed. *)
Definition after_power_cut (f : disk) (qs : list (prog unit)) (g : disk) : Prop :=
  (forall l, has_dir g l = has_dir f l) /\ forall l n, exists h, moments f qs h /\ file g l n = file h l n.

(** ** What still opens *)

Lemma power_reader f qs g l : after_power_cut f qs g ->
  (exists h, moments f qs h /\ rd_meta (file_reader g l) = answer (file h l meta_file)) /\
  forall n, exists h, moments f qs h /\ rd_key (file_reader g l) n = answer (file h l (key_file n)).
Proof.
  intros [_ H]. split; [|intros n].
  - destruct (H l meta_file) as (h & M & E). exists h. split; [exact M|]. cbn [file_reader rd_meta]. rewrite E. reflexivity.
  - destruct (H l (key_file n)) as (h & M & E). exists h. split; [exact M|]. cbn [file_reader rd_key]. rewrite E. reflexivity.
Qed.

(** If the set opens at all, it opens as it was before the commands or after one of them: a set put
    together from files of different age is not taken for a set, as long as no number was used twice. *)
Theorem C80_history_partial : forall cl l f ks cs g ks', loadable f l ks -> text_ok (ks_name ks) -> tidy f l ks -> Forall (fun c => kcmd_ok (fst c)) cs ->
  let qs := map (command_prog l) cs in
  after_power_cut f qs g -> exec (open_files cl l None) g = (g, Ok ks') -> numbers_kept l f qs ->
  exists i ksi, (i <= length cs)%nat /\ loadable (disk_after f qs i) l ksi /\ same_contents ks' ksi.
Proof.
  intros cl l f ks cs g ks' HL HN HT HC qs HP HO NK. rewrite exec_open in HO. apply pair_inj in HO as [_ HO]. cbn [disk_reader] in HO.
  destruct (power_reader f qs g l HP) as [HE HK]. apply (history_reader cl l f ks cs (file_reader g l) ks' HL HN HT HC HO HE HK NK).
Qed.
Print Assumptions C80_history_partial.

(** This is so for commands that revoke nothing... *)
Theorem C80_no_revocation : forall cl l f ks cs g ks', loadable f l ks -> text_ok (ks_name ks) -> tidy f l ks -> Forall (fun c => kcmd_ok (fst c)) cs ->
  (forall c m, In c cs -> fst c <> CmdRevoke m) -> let qs := map (command_prog l) cs in
  after_power_cut f qs g -> exec (open_files cl l None) g = (g, Ok ks') ->
  exists i ksi, (i <= length cs)%nat /\ loadable (disk_after f qs i) l ksi /\ same_contents ks' ksi.
Proof.
  intros cl l f ks cs g ks' HL HN HT HC NV qs HP HO. apply (C80_history_partial cl l f ks cs g ks' HL HN HT HC HP HO), (kept_no_revocation l f ks cs HL HN HT HC NV).
Qed.
Print Assumptions C80_no_revocation.

(** ... and for one command of any kind. *)
Theorem C80_one_command : forall cl l f ks c es g ks', loadable f l ks -> text_ok (ks_name ks) -> tidy f l ks -> kcmd_ok c ->
  after_power_cut f [kcmd_prog l c es] g -> exec (open_files cl l None) g = (g, Ok ks') ->
  same_contents ks' ks \/ exists ks1, loadable (fst (exec (kcmd_prog l c es) f)) l ks1 /\ same_contents ks' ks1.
Proof.
  intros cl l f ks c es g ks' HL HN HT HC HP HO. destruct (kept_single l f ks c es HL HN HT HC) as (NK & ks1 & L1 & AT).
  destruct (C80_history_partial cl l f ks [(c, es)] g ks' HL HN HT ltac:(repeat constructor; exact HC) HP HO NK) as (i & ksi & _ & Li & SC).
  destruct (AT _ _ Li) as [->| ->]; [left; exact SC | right; exists ks1; split; assumption].
Qed.
Print Assumptions C80_one_command.

(** ** What each file holds *)

Lemma partly_file f g l ws n : partly f g l ws -> file g l n = file f l n \/ exists s t, In (n, s ++ t) ws /\ file g l n = Some s.
Proof.
  intros (_ & ws1 & ws2 & -> & A & B). destruct (in_dec (list_eq_dec Byte.byte_eq_dec) n (map fst ws1)) as [HI|HI].
  { right. apply in_map_iff in HI as ([a b] & E & HI). cbn [fst] in E. subst a. exists b, []. rewrite app_nil_r. split; [apply in_or_app; left; exact HI | apply A, HI]. }
  destruct B as [B|(n0 & s0 & ws3 & d1 & d2 & -> & -> & _ & F0 & B)]; [left; apply B; right; exact HI|].
  destruct (str_eqb n0 n) eqn:E.
  - apply str_eqb_eq in E as ->. right. exists d1, d2. split; [apply in_or_app; right; left; reflexivity | exact F0].
  - left. apply B. right. intros [C|C]; [subst n0; rewrite str_eqb_refl in E; discriminate | exact (HI C)].
Qed.

(** Other directories are untouched.  A file of the set is as it was before, or holds the beginning of what
    the command wrote to it, possibly all of it or nothing; only the file of a revoked version is apart. *)
Theorem C80_each_file : forall l f ks c es g g', loadable f l ks -> text_ok (ks_name ks) -> kcmd_ok c ->
  exec (kcmd_prog l c es) f = (g, Ok tt) -> after_power_cut f [kcmd_prog l c es] g' ->
  (forall l' n, l' <> l -> file g' l' n = file f l' n) /\
  forall n, (forall m, c = CmdRevoke m -> n <> key_file m) ->
    file g' l n = file f l n \/ exists s t, file g l n = Some (s ++ t) /\ file g' l n = Some s.
Proof.
  intros l f ks c es g g' HL HN HC HX HP. pose proof (loadable_open _ _ _ HL) as HO. pose proof (made_open _ _ _ HO) as M. pose proof (made_inv _ M) as I.
  pose proof (opened_dir f l None ks _ HO) as HD.
  destruct (cmd_shape l f ks c es HL HN HC) as [(e' & C & _)|(ks' & r' & ES & RC & RE & _ & H)]; [congruence|].
  assert (DO : draws_ok (op_of c)) by (destruct c; exact HC).
  assert (M' : made ks') by (change ks' with (fst (ks', Ok tt)); rewrite <- ES, step_run; apply made_run; [exact M | repeat constructor; exact DO]).
  pose proof (made_inv _ M') as I'. pose proof (made_wf _ M') as W'.
  destruct (cmd_final l f ks c es g ks' HL ES HC HX) as (g1 & HW & HG). pose proof (set_writes_done ks' l es f g1 I' W' HD HW) as SD.
  assert (ALL : forall h, moments f [kcmd_prog l c es] h -> (forall l' n, l' <> l -> file h l' n = file f l' n) /\
     forall n, (forall m, c = CmdRevoke m -> n <> key_file m) -> file h l n = file f l n \/ exists s t, In (n, s ++ t) (set_writes ks') /\ file h l n = Some s).
  { intros h Hh. assert (HDu : during f (kcmd_prog l c es) h) by (destruct Hh as [Hh|Hh]; [exact Hh|]; cbn [moments] in Hh; subst h; rewrite HX; apply (during_end _ _ _ _ HX)).
    assert (PA : forall h', during f (WriteSet ks' l None es) h' -> (forall l' n, l' <> l -> file h' l' n = file f l' n) /\
       forall n, file h' l n = file f l n \/ exists s t, In (n, s ++ t) (set_writes ks') /\ file h' l n = Some s).
    { intros h' Hh'. pose proof (during_WriteSet ks' l es f h' I' W' HD Hh') as P. split; [|intros n; apply (partly_file _ _ _ _ _ P)].
      destruct P as (_ & ws1 & ws2 & _ & _ & B). intros l' n D. destruct B as [B|(n0 & s0 & ws3 & d1 & d2 & _ & _ & _ & _ & B)]; apply B; left; exact D. }
    destruct (H h HDu) as [->|[Hw|(n & g2 & -> & HW2 & ->)]].
    - split; [reflexivity | left; reflexivity].
    - destruct (PA h Hw) as [P1 P2]. split; [exact P1 | intros n _; apply P2].
    - destruct (PA g2 (during_end _ _ _ _ HW2)) as [P1 P2]. split.
      + intros l' n' D. rewrite file_del. rewrite (str_eqb_neq l l') by congruence. apply P1, D.
      + intros n' D. rewrite file_del. rewrite (str_eqb_neq (key_file n) n') by (intros E; apply (D n eq_refl); congruence). rewrite andb_false_r. apply P2. }
  destruct HP as [_ HP]. split.
  - intros l' n D. destruct (HP l' n) as (h & Hh & ->). apply (proj1 (ALL h Hh)), D.
  - intros n D. destruct (HP l n) as (h & Hh & E). rewrite E. destruct (proj2 (ALL h Hh) n D) as [F|(s & t & HI & F)]; [left; exact F|].
    right. exists s, t. split; [|exact F]. rewrite HG by (intros m Hm; right; apply (D m Hm)). apply SD, HI.
Qed.
Print Assumptions C80_each_file.

(** ** If every file is as before or as after *)

Lemma mix_loads h l ks g : loadable h l ks -> file g l meta_file = file h l meta_file ->
  (forall n s k, ring_of ks n = Some (s, k) -> exists x, file g l (key_file n) = Some x /\ ReadKey (ks_type ks) x = Ok k) ->
  exists ks2, loadable g l ks2 /\ same_contents ks2 ks.
Proof.
  intros HL HM HK. pose proof (loadable_open _ _ _ HL) as HO. pose proof (inv_open _ _ _ HO) as I.
  destruct (proj1 (C75_opens_iff _ _) (ex_intro _ ks HO)) as (m & MF & OP & _).
  destruct (C75_contents _ _ _ _ HO MF) as (C1 & C2 & C3 & C4 & C5 & C6).
  assert (MFg : metadata_for GenericKeyczar (file_reader g l) m).
  { destruct MF as (s & E1 & E2). exists s. split; [|exact E2]. cbn [file_reader rd_meta] in *. rewrite HM. exact E1. }
  assert (KA : forall v k, In v (meta_versions m) -> ring_of ks (v_num v) = Some (v_status v, k) -> key_at (file_reader g l) (m_type m) v k).
  { intros v k HV R. destruct (HK _ _ _ R) as (x & F & RK). destruct (opened_files _ l h ks _ _ _ HO R) as (_ & _ & _ & hh & EH).
    exists x, hh. cbn [file_reader rd_key]. rewrite F, <- C3. split; [reflexivity|]. split; assumption. }
  assert (IN : forall v, In v (meta_versions m) -> exists k, ring_of ks (v_num v) = Some (v_status v, k)).
  { intros v HV. destruct (ring_of ks (v_num v)) as [[s k]|] eqn:R; [|exfalso; apply (proj1 (C6 _) R); exists v; split; [exact HV | reflexivity]].
    apply C5 in R as R0. destruct R0 as (w & W1 & W2 & W3 & KW). exists k. rewrite <- R. apply C5.
    exists v. split; [exact HV|]. split; [reflexivity|]. split; [reflexivity|]. destruct KW as (x & hh & K1 & K2 & K3). exists x, hh. rewrite <- W2. split; [exact K1|]. split; assumption. }
  destruct (proj2 (C75_opens_iff GenericKeyczar (file_reader g l))) as (ks2 & H2).
  { exists m. split; [exact MFg|]. split; [exact OP|]. intros v HV. destruct (IN v HV) as (k & R). exists k. apply (KA v k HV R). }
  exists ks2. split; [unfold loadable; rewrite exec_open; cbn [disk_reader]; rewrite H2; reflexivity|].
  destruct (C75_contents _ _ _ _ H2 MFg) as (D1 & D2 & D3 & D4 & D5 & D6).
  split; [congruence|]. split; [congruence|]. split; [congruence|]. split; [congruence|]. intros n.
  destruct (ring_of ks n) as [[s k]|] eqn:R.
  - apply D5. apply C5 in R as R0. destruct R0 as (v & V1 & V2 & V3 & _). exists v. split; [exact V1|]. split; [exact V2|]. split; [exact V3|]. apply (KA v k V1). rewrite V2, V3. exact R.
  - apply D6, C6, R.
Qed.

(** Then the set opens as before or as after, except in two cases: the old metadata with the key of the
    revoked version removed, and the new metadata without the key that was added. *)
Theorem C80_whole_files : forall l f ks c es g g', loadable f l ks -> text_ok (ks_name ks) -> kcmd_ok c ->
  exec (kcmd_prog l c es) f = (g, Ok tt) ->
  (forall n, file g' l n = file f l n \/ file g' l n = file g l n) ->
  (exists n, c = CmdRevoke n /\ file g' l meta_file = file f l meta_file /\ file g' l (key_file n) = None) \/
  (exists n s size ds, c = CmdAddKey s size ds /\ ring_of ks n = None /\ file g' l meta_file = file g l meta_file /\ file g' l (key_file n) = file f l (key_file n)) \/
  exists ks2, loadable g' l ks2 /\ (same_contents ks2 ks \/ exists ks1, loadable g l ks1 /\ same_contents ks2 ks1).
Proof.
  intros l f ks c es g g' HL HN HC HX HW. pose proof (loadable_open _ _ _ HL) as HO.
  destruct (C47_command l f ks c es g (Ok tt) HL HN HC HX) as [(_ & (ks1 & r' & L1 & _ & _ & T1 & RC & RE) & _ & _ & RV)|((e & E) & _)]; [|discriminate E].
  pose proof (loadable_open _ _ _ L1) as HO1.
  assert (OLD : forall n s k, ring_of ks n = Some (s, k) -> file g' l (key_file n) = file f l (key_file n) -> exists x, file g' l (key_file n) = Some x /\ ReadKey (ks_type ks) x = Ok k).
  { intros n s k R F. destruct (opened_files _ l f ks n s k HO R) as (x & EX & RK & _). exists x. split; [congruence | exact RK]. }
  assert (NEW : forall n s k, ring_of ks1 n = Some (s, k) -> file g' l (key_file n) = file g l (key_file n) -> exists x, file g' l (key_file n) = Some x /\ ReadKey (ks_type ks) x = Ok k).
  { intros n s k R F. destruct (opened_files _ l g ks1 n s k HO1 R) as (x & EX & RK & _). exists x. split; [congruence|]. rewrite <- T1. exact RK. }
  destruct (HW meta_file) as [FM|FM].
  - assert (D : (exists n, c = CmdRevoke n /\ file g' l (key_file n) = file g l (key_file n)) \/ (forall n, c = CmdRevoke n -> file g' l (key_file n) = file f l (key_file n))).
    { destruct c as [| | |n]; try (right; intros m E; discriminate E). destruct (HW (key_file n)) as [F|F]; [right; intros m E; injection E as <-; exact F | left; exists n; split; [reflexivity | exact F]]. }
    destruct D as [(n & -> & F)|D]; [left; exists n; split; [reflexivity|]; split; [exact FM|]; rewrite F; apply (RV n eq_refl)|].
    right. right. destruct (mix_loads f l ks g' HL FM) as (ks2 & L2 & S2); [|exists ks2; split; [exact L2 | left; exact S2]].
    intros n s k R. destruct (HW (key_file n)) as [F|F]; [apply (OLD n s k R F)|].
    destruct (match c with CmdRevoke m => m =? n | _ => false end) eqn:EC.
    + destruct c as [| | |m]; try discriminate EC. apply Z.eqb_eq in EC as ->. apply (OLD n s k R), (D n eq_refl).
    + destruct (ring_cmd_kept _ _ _ _ n s k RC R) as (s' & R'); [intros m -> ->; rewrite Z.eqb_refl in EC; discriminate|]. rewrite <- RE in R'. apply (NEW n s' k R' F).
  - assert (D : (exists n s size ds, c = CmdAddKey s size ds /\ ring_of ks n = None /\ file g' l (key_file n) = file f l (key_file n)) \/
       (forall n s k, ring_of ks1 n = Some (s, k) -> ring_of ks n = None -> file g' l (key_file n) = file g l (key_file n))).
    { destruct c as [s size ds|n0|n0|n0];
       try (right; intros n1 s1 k1 R RN; rewrite RE in R; destruct (ring_cmd_keys _ _ _ _ _ _ _ RC R) as [(s2 & C)|(_ & (? & ? & ? & C))]; [congruence | discriminate C]).
      inversion RC as [? ? ? d n k A1 A2 A3 A4 A5| | |]; subst.
      assert (RO : ring_of ks n = None) by (destruct (ring_of ks n) as [x|] eqn:E; [|reflexivity]; apply (proj1 (proj2 A4)) in E; lia).
      destruct (HW (key_file n)) as [F|F]; [left; exists n, s, size, ds; split; [reflexivity|]; split; [exact RO | exact F]|].
      right. intros n1 s1 k1 R RN. rewrite RE in R. destruct (n1 =? n) eqn:E; [apply Z.eqb_eq in E as ->; exact F|].
      unfold ring_add in R. rewrite E in R. destruct s; rewrite RN in R; discriminate R. }
    destruct D as [(n & s & size & ds & -> & RN & F)|D]; [right; left; exists n, s, size, ds; split; [reflexivity|]; split; [exact RN|]; split; assumption|].
    right. right. destruct (mix_loads g l ks1 g' L1 FM) as (ks2 & L2 & S2); [|exists ks2; split; [exact L2 | right; exists ks1; split; assumption]].
    intros n s k R. rewrite T1. destruct (HW (key_file n)) as [F|F]; [|apply (NEW n s k R F)]. pose proof R as R0. rewrite RE in R0.
    destruct (ring_cmd_keys _ _ _ _ _ _ _ RC R0) as [(s0 & C)|(RN & _)]; [apply (OLD n s0 k C F) | apply (NEW n s k R), (D n s k R RN)].
Qed.
Print Assumptions C80_whole_files.

(** ** What may be lost *)

(** The disk with these key files emptied. *)
Fixpoint emptied (f : disk) (l : str) (ns : list Z) : disk :=
  match ns with [] => f | n :: ns => set_file (emptied f l ns) l (key_file n) [] end.

Lemma has_dir_emptied f l ns l' : has_dir (emptied f l ns) l' = has_dir f l'.
Proof. induction ns as [|n ns IH]; [reflexivity|]. cbn [emptied]. rewrite has_dir_set. exact IH. Qed.
Lemma file_emptied f l ns l' n' : has_dir f l = true ->
  (exists n, In n ns /\ l' = l /\ n' = key_file n /\ file (emptied f l ns) l' n' = Some []) \/
  ((forall n, In n ns -> l' <> l \/ n' <> key_file n) /\ file (emptied f l ns) l' n' = file f l' n').
Proof.
  intros HD. induction ns as [|n ns IH]; [right; split; [intros n []|reflexivity]|]. cbn [emptied]. rewrite file_set by (rewrite has_dir_emptied; exact HD).
  destruct (str_eqb l l' && str_eqb (key_file n) n') eqn:E.
  - apply andb_true_iff in E as [E1 E2]. apply str_eqb_eq in E1 as <-. apply str_eqb_eq in E2 as <-. left. exists n. split; [left; reflexivity|]. repeat split.
  - assert (D : l' <> l \/ n' <> key_file n).
    { destruct (str_eqb l l') eqn:E1; [right; intros ->; rewrite str_eqb_refl in E; discriminate | left; intros ->; rewrite str_eqb_refl in E1; discriminate]. }
    destruct IH as [(m & HI & A & B & F)|(H & F)]; [left; exists m; split; [right; exact HI|]; repeat (split; [assumption|]); exact F|].
    right. split; [intros m [<-|HI]; [exact D | apply H, HI] | exact F].
Qed.

(** A set needs the key of each version that its metadata lists. *)
Lemma needs_key h l ks g cl ks2 n s k : loadable h l ks -> file g l meta_file = file h l meta_file -> ring_of ks n = Some (s, k) ->
  exec (open_files cl l None) g = (g, Ok ks2) -> exists x k', file g l (key_file n) = Some x /\ ReadKey (ks_type ks) x = Ok k'.
Proof.
  intros HL HM R HO2. pose proof (loadable_open _ _ _ HL) as HO. rewrite exec_open in HO2. apply pair_inj in HO2 as [_ HO2]. cbn [disk_reader] in HO2.
  destruct (proj1 (C75_opens_iff _ _) (ex_intro _ ks HO)) as (m & MF & _). destruct (proj1 (C75_opens_iff _ _) (ex_intro _ ks2 HO2)) as (m2 & MF2 & _ & K2).
  destruct (C75_contents _ _ _ _ HO MF) as (_ & _ & C3 & _ & C5 & _).
  assert (m2 = m) as ->. { destruct MF as (s1 & A1 & A2 & _), MF2 as (s2 & B1 & B2 & _). cbn [file_reader rd_meta] in A1, B1. rewrite HM, A1 in B1. apply Ok_inj in B1 as <-. rewrite A2 in B2. apply Ok_inj in B2 as <-. reflexivity. }
  apply C5 in R as (v & V1 & V2 & _). destruct (K2 v V1) as (k' & x & hh & X1 & X2 & _). cbn [file_reader rd_key] in X1. rewrite V2 in X1.
  destruct (file g l (key_file n)) as [y|]; [|discriminate X1]. apply Ok_inj in X1 as <-. exists y, k'. split; [reflexivity | rewrite C3; exact X2].
Qed.

(** REFUTED for every command that succeeds: though it has ended and reported success, all keys of the set
    may be gone with the power, at once, and under the old metadata as well as under the new. *)
Theorem C80_all_keys_lost_refuted : forall l f ks c es g, loadable f l ks -> text_ok (ks_name ks) -> kcmd_ok c ->
  exec (kcmd_prog l c es) f = (g, Ok tt) ->
  forall h, (h = f \/ h = g) -> exists g', after_power_cut f [kcmd_prog l c es] g' /\ file g' l meta_file = file h l meta_file /\
    (forall n s k, ring_of ks n = Some (s, k) -> file g' l (key_file n) = Some []) /\
    forall n s k cl, ring_of ks n = Some (s, k) -> (forall m, c = CmdRevoke m -> m <> n) -> exists e, exec (open_files cl l None) g' = (g', Raise e).
Proof.
  intros l f ks c es g HL HN HC HX h Hh. pose proof (loadable_open _ _ _ HL) as HO. pose proof (made_open _ _ _ HO) as M. pose proof (made_inv _ M) as I.
  pose proof (opened_dir f l None ks _ HO) as HD.
  destruct (C47_command l f ks c es g (Ok tt) HL HN HC HX) as [(_ & (ks1 & r' & L1 & _ & _ & T1 & RC & RE) & OT & DT & RV)|((e & E) & _)]; [|discriminate E].
  assert (HDh : has_dir h l = true) by (destruct Hh as [->| ->]; [exact HD | rewrite DT; exact HD]).
  assert (DIR : forall l', has_dir h l' = has_dir f l') by (intros l'; destruct Hh as [->| ->]; [reflexivity | apply DT]).
  assert (MO : moments f [kcmd_prog l c es] h) by (destruct Hh as [->| ->]; left; [constructor | apply (during_end _ _ _ _ HX)]).
  set (ns := map fst (ks_mvers ks)). assert (NS : forall n, In n ns <-> exists s k, ring_of ks n = Some (s, k)).
  { intros n. split.
    - intros HI. apply in_map_iff in HI as ([a o] & E & HI). cbn [fst] in E. subst a. destruct (ring_known ks n o I (assoc_NoDup Z.eqb_eq (inv_mkeys ks I) HI)) as (k & _ & R). eexists _, k. exact R.
    - intros (s & k & R). destruct (ring_entry ks n s k I R) as (o & A & _). apply in_map_iff. exists (n, o). split; [reflexivity | apply (assoc_In Z.eqb_eq A)]. }
  assert (EMP : forall n s k, ring_of ks n = Some (s, k) -> file (emptied h l ns) l (key_file n) = Some []).
  { intros n s k R. destruct (file_emptied h l ns l (key_file n) HDh) as [(m & _ & _ & _ & F)|(H & _)]; [exact F|]. exfalso. destruct (H n (proj2 (NS n) (ex_intro _ s (ex_intro _ k R)))) as [C|C]; apply C; reflexivity. }
  assert (MET : file (emptied h l ns) l meta_file = file h l meta_file).
  { destruct (file_emptied h l ns l meta_file HDh) as [(m & _ & _ & E & _)|(_ & F)]; [exfalso; apply (key_file_meta m); congruence | exact F]. }
  exists (emptied h l ns). split; [|split; [exact MET|split; [exact EMP|]]].
  - split; [intros l'; rewrite has_dir_emptied; apply DIR|]. intros l' n'. destruct (file_emptied h l ns l' n' HDh) as [(m & HI & -> & -> & F)|(_ & F)].
    + apply NS in HI as (s & k & R). destruct (C48_key_material_lost_refuted l f ks c es g m s k HL HN HC HX R) as (h' & Hd & E). exists h'. split; [left; exact Hd | congruence].
    + exists h. split; assumption.
  - intros n s k cl R NR. destruct (exec (open_files cl l None) (emptied h l ns)) as [g2 [ks2|e]] eqn:EO; pose proof (exec_reads _ (reads_open cl l None) (emptied h l ns)) as EG; rewrite EO in EG; cbn [fst] in EG; subst g2;
      [exfalso | exists e; reflexivity].
    assert (NO : forall t k', ReadKey t [] <> Ok k') by (intros t k' C; apply key_object in C as (o & C); vm_compute in C; discriminate C).
    pose proof (EMP n s k R) as EN. destruct Hh as [->| ->].
    + destruct (needs_key f l ks _ cl ks2 n s k HL MET R EO) as (x & k' & F & RK). rewrite EN in F. apply Some_inj in F as <-. exact (NO _ _ RK).
    + destruct (ring_cmd_kept _ _ _ _ n s k RC R NR) as (s' & R'). rewrite <- RE in R'.
      destruct (needs_key g l ks1 _ cl ks2 n s' k L1 MET R' EO) as (x & k' & F & RK). rewrite EN in F. apply Some_inj in F as <-. exact (NO _ _ RK).
Qed.
Print Assumptions C80_all_keys_lost_refuted.

(** REFUTED in another way for [revoke]: the removal of the key file may reach the disk before the
    metadata, and then no class opens the set, though every other file is whole. *)
Theorem C80_revoke_refuted : forall l f ks n es g, loadable f l ks -> text_ok (ks_name ks) ->
  exec (kcmd_prog l (CmdRevoke n) es) f = (g, Ok tt) ->
  exists g', after_power_cut f [kcmd_prog l (CmdRevoke n) es] g' /\ (forall n', n' <> key_file n -> file g' l n' = file f l n') /\
    file g' l (key_file n) = None /\ forall cl, exists e, exec (open_files cl l None) g' = (g', Raise e).
Proof.
  intros l f ks n es g HL HN HX. assert (HC : kcmd_ok (CmdRevoke n)) by exact Logic.I.
  destruct (C47_command l f ks _ es g (Ok tt) HL HN HC HX) as [(_ & (ks1 & r' & L1 & _ & _ & T1 & RC & RE) & OT & DT & RV)|((e & E) & _)]; [|discriminate E].
  set (g' := del_file f l (key_file n)).
  assert (FD : forall l' n', file g' l' n' = if str_eqb l l' && str_eqb (key_file n) n' then None else file f l' n') by (intros l' n'; apply file_del).
  assert (F0 : file g' l (key_file n) = None) by (rewrite FD, !str_eqb_refl; reflexivity).
  assert (F1 : forall n', n' <> key_file n -> file g' l n' = file f l n') by (intros n' D; rewrite FD, (str_eqb_neq (key_file n) n') by congruence; rewrite andb_false_r; reflexivity).
  exists g'. split; [|split; [exact F1|split; [exact F0|]]].
  - split; [intros l'; apply has_dir_del|]. intros l' n'. rewrite FD. destruct (str_eqb l l' && str_eqb (key_file n) n') eqn:E.
    + apply andb_true_iff in E as [E1 E2]. apply str_eqb_eq in E1 as <-. apply str_eqb_eq in E2 as <-. exists g. split; [left; apply (during_end _ _ _ _ HX) | symmetry; apply (RV n eq_refl)].
    + exists f. split; [left; constructor | reflexivity].
  - intros cl. destruct (exec (open_files cl l None) g') as [g2 [ks2|e]] eqn:EO; pose proof (exec_reads _ (reads_open cl l None) g') as EG; rewrite EO in EG; cbn [fst] in EG; subst g2; [exfalso | exists e; reflexivity].
    inversion RC as [| | |? ? A1 A2]; subst. unfold ring_revoke in A2. destruct (ring_of ks n) as [[s k]|] eqn:R; [|discriminate A2].
    destruct (needs_key f l ks g' cl ks2 n s k HL (F1 meta_file ltac:(intros C; apply (key_file_meta n); congruence)) R EO) as (x & k' & F & _). congruence.
Qed.
Print Assumptions C80_revoke_refuted.

(** ** Cases *)

(** Any moment is also what a power cut may leave. *)
Lemma dstep_dir {A} f (p : prog A) f' p' l0 : dstep f p = (f', p') -> has_dir f' l0 = has_dir f l0.
Proof.
  destruct p; cbn [dstep]; intros H; try (apply pair_inj in H as [<- _]; first [reflexivity | apply has_dir_put]).
  - destruct (has_dir f l); apply pair_inj in H as [<- _]; [apply has_dir_set | reflexivity].
  - destruct (file f l n); apply pair_inj in H as [<- _]; [apply has_dir_del | reflexivity].
Qed.
Lemma during_dir {A} f (p : prog A) g l : during f p g -> has_dir g l = has_dir f l.
Proof.
  intros H. induction H as [f p|f l0 n d1 d2 k|f p f' p' g HS H IH]; [reflexivity | apply has_dir_put|]. rewrite IH. apply (dstep_dir _ _ _ _ _ HS).
Qed.
Theorem C80_every_moment : forall f q g, during f q g -> after_power_cut f [q] g.
Proof. intros f q g H. split; [intros l; apply (during_dir _ _ _ _ H)|]. intros l n. exists g. split; [left; exact H | reflexivity]. Qed.
Print Assumptions C80_every_moment.

Lemma promoting_power : after_power_cut test_disk [kcmd_prog hm (CmdPromote 1) one_env] promoting.
Proof. apply C80_every_moment, during_some. Qed.
Lemma promote_runs : exists g, exec (kcmd_prog hm (CmdPromote 1) one_env) test_disk = (g, Ok tt).
Proof. eexists. vm_compute. reflexivity. Qed.
Lemma revoke_runs : exists g, exec (kcmd_prog hm (CmdRevoke 2) one_env) demoted = (g, Ok tt).
Proof. eexists. vm_compute. reflexivity. Qed.
Lemma demoted_name : forall ks, loadable demoted hm ks -> text_ok (ks_name ks).
Proof.
  intros ks L. pose proof four_sets as S4. rewrite (proj2 (opened_loadable _ _) L) in S4. destruct (opened_at crashed), (opened_at adding), (opened_at added); try contradiction.
  destruct S4 as [-> _]. apply (tx_ok "Test").
Qed.

(** While version 1 is promoted the power fails: the set may open with the new status, or not at all.  A
    revocation may leave it without the key that its metadata lists. *)
Example C80_case : loadable test_disk hm hmac_set /\ text_ok (ks_name hmac_set) /\ tidy test_disk hm hmac_set /\ kcmd_ok (CmdPromote 1) /\
  (exists g ks', after_power_cut test_disk [kcmd_prog hm (CmdPromote 1) one_env] g /\ exec (open_files GenericKeyczar hm None) g = (g, Ok ks') /\
     option_map fst (ring_of ks' 1) = Some PRIMARY) /\
  (exists g, after_power_cut test_disk [kcmd_prog hm (CmdPromote 1) one_env] g /\ file g hm meta_file = file test_disk hm meta_file /\
     file g hm (key_file 1) = Some [] /\ file g hm (key_file 2) = Some []) /\
  exists ks g g', loadable demoted hm ks /\ exec (kcmd_prog hm (CmdRevoke 2) one_env) demoted = (g, Ok tt) /\
    after_power_cut demoted [kcmd_prog hm (CmdRevoke 2) one_env] g' /\ file g' hm (key_file 2) = None /\ file g' hm meta_file = file demoted hm meta_file.
Proof.
  split; [exact hmac_loadable|]. split; [apply (tx_ok "Test")|]. split; [exact test_tidy|]. split; [exact Logic.I|]. split; [|split].
  - pose proof promoting_set as PS. destruct (opened_at promoting) as [ks'|] eqn:E; [|contradiction]. exists promoting, ks'. split; [exact promoting_power|].
    split; [apply opened_loadable in E; exact E | exact PS].
  - destruct promote_runs as (g & HX).
    destruct (C80_all_keys_lost_refuted hm test_disk hmac_set (CmdPromote 1) one_env g hmac_loadable (tx_ok "Test") Logic.I HX test_disk (or_introl eq_refl)) as (g' & HP & HM & HK & _).
    exists g'. split; [exact HP|]. split; [exact HM|].
    assert (R1 : exists s k, ring_of hmac_set 1 = Some (s, k)) by (eexists _, _; vm_compute; reflexivity). assert (R2 : exists s k, ring_of hmac_set 2 = Some (s, k)) by (eexists _, _; vm_compute; reflexivity).
    destruct R1 as (s1 & k1 & R1), R2 as (s2 & k2 & R2). split; [apply (HK 1 s1 k1 R1) | apply (HK 2 s2 k2 R2)].
  - destruct demoted_tidy as (ks & L & _), revoke_runs as (g & HX). destruct (C80_revoke_refuted hm demoted ks 2 one_env g L (demoted_name ks L) HX) as (g' & HP & HF & H0 & _).
    exists ks, g, g'. split; [exact L|]. split; [exact HX|]. split; [exact HP|]. split; [exact H0|]. apply HF. intros C. apply (key_file_meta 2). congruence.
Qed.

(** REFUTED when a number is used again: the commands demote version 2 twice, revoke it and add a version,
    which gets the number 2 again.  After the power cut the metadata may be the newest and the key file the
    oldest: the revoked key is back, in use, and the set opens without complaint. *)
Definition reuse_qs : list (prog unit) := map (command_prog hm) reuse_cmds.
Definition undead : disk := set_file (disk_after test_disk reuse_qs 4) hm (key_file 2) hmac_2.
Lemma moments_end : forall qs f, moments f qs (disk_after f qs (length qs)).
Proof. induction qs as [|q qs IH]; intros f; [reflexivity|]. right. apply IH. Qed.
Lemma moments_dir : forall qs f g l, moments f qs g -> has_dir g l = has_dir f l.
Proof.
  induction qs as [|q qs IH]; intros f g l H; [cbn in H; subst g; reflexivity|]. destruct H as [H|H]; [apply (during_dir _ _ _ _ H)|].
  rewrite (IH _ _ _ H). destruct (exec q f) as [f1 r] eqn:E. apply (during_dir _ _ _ _ (during_end _ _ _ _ E)).
Qed.
Lemma undead_power : after_power_cut test_disk reuse_qs undead.
Proof.
  pose proof (moments_end reuse_qs test_disk) as ME. change (length reuse_qs) with 4%nat in ME.
  split; [intros l; unfold undead; rewrite has_dir_set; apply (moments_dir _ _ _ _ ME)|]. intros l n.
  unfold undead. rewrite file_set by (rewrite (moments_dir _ _ _ hm ME); reflexivity). destruct (str_eqb hm l && str_eqb (key_file 2) n) eqn:E.
  - apply andb_true_iff in E as [E1 E2]. apply str_eqb_eq in E1 as <-. apply str_eqb_eq in E2 as <-. exists test_disk. split; [apply moments_now | vm_compute; reflexivity].
  - eexists. split; [exact ME | reflexivity].
Qed.
Lemma undead_set : match opened_at undead with
  | Ok x => option_map fst (ring_of x 2) = Some ACTIVE /\ option_map snd (ring_of x 2) = option_map snd (ring_of hmac_set 2)
  | Raise _ => False end.
Proof. vm_compute. split; reflexivity. Qed.
Lemma revoked_set : match opened_at (disk_after test_disk reuse_qs 3) with Ok x => ring_of x 2 = None | Raise _ => False end.
Proof. vm_compute. reflexivity. Qed.
Theorem C80_reused_number_refuted : exists l f ks cs g ks' s k, loadable f l ks /\ text_ok (ks_name ks) /\ tidy f l ks /\ Forall (fun c => kcmd_ok (fst c)) cs /\
  after_power_cut f (map (command_prog l) cs) g /\ exec (open_files GenericKeyczar l None) g = (g, Ok ks') /\
  ring_of ks 2 = Some (s, k) /\ (exists i ksi, (i <= length cs)%nat /\ loadable (disk_after f (map (command_prog l) cs) i) l ksi /\ ring_of ksi 2 = None) /\
  ring_of ks' 2 = Some (ACTIVE, k).
Proof.
  pose proof undead_set as US. destruct (opened_at undead) as [ks'|] eqn:EO; [|contradiction]. destruct US as [U1 U2].
  pose proof revoked_set as RS. destruct (opened_at (disk_after test_disk reuse_qs 3)) as [ks3|] eqn:E3; [|contradiction].
  destruct (ring_of hmac_set 2) as [[s k]|] eqn:R; [|vm_compute in R; discriminate R]. cbn [option_map snd] in U2.
  destruct (ring_of ks' 2) as [[s' k']|] eqn:R'; [|discriminate U1]. cbn [option_map fst snd] in U1, U2. apply Some_inj in U1 as ->. apply Some_inj in U2 as ->.
  exists hm, test_disk, hmac_set, reuse_cmds, undead, ks', s, k. split; [exact hmac_loadable|]. split; [apply (tx_ok "Test")|]. split; [exact test_tidy|]. split; [exact reuse_ok|].
  split; [exact undead_power|]. split; [apply opened_loadable in EO; exact EO|]. split; [exact R|]. split; [|exact R'].
  exists 3%nat, ks3. split; [cbn; lia|]. split; [apply opened_loadable in E3; exact E3 | exact RS].
Qed.
Print Assumptions C80_reused_number_refuted.
