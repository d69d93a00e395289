(** * Props_Cmd: concurrent commands (C49) and the command line (C50). *)
From Coq Require Import Strings.String.
From Coq Require Import List ZArith NArith Bool Lia ZifyBool ZifyNat ZifyN.
From Coq.Init Require Import Byte.
From Verif Require Import PyBase PyFacts Base64 Util Json JsonFacts KeyInfo Keys KeysFacts KeyData Keyczar KeyRing
  KeyczarFacts Props_Keyset Disk Keyczart DiskFacts CrashFacts Props_Disk Props_Tool.
Import ListNotations.
Local Open Scope Z_scope.
Ltac Zify.zify_post_hook ::= idtac.

(** ** Interleavings *)

Ltac left_step := eapply BothLeft; [intros ? ?; discriminate | cbn [dstep]; try reflexivity | ].

Lemma both_left_exec {A B C} (p : prog A) (k : A -> prog B) (q : prog C) : forall f f1 a g r s,
  exec p f = (f1, Ok a) -> both f1 (k a) q g r s -> both f (pbind p k) q g r s.
Proof.
  induction p as [[x|e]|l n c IH|l c IH|l n c IH|l n c IH|l n d c IH|l n c IH|l c IH]; intros f f1 a g r s HX H; cbn [exec] in HX; cbn [pbind].
  - apply pair_inj in HX as [<- HX]. apply Ok_inj in HX as <-. exact H.
  - apply pair_inj in HX as [_ HX]. discriminate.
  - left_step. apply (IH _ _ _ _ _ _ _ HX H).
  - left_step. apply (IH _ _ _ _ _ _ _ HX H).
  - left_step. apply (IH _ _ _ _ _ _ _ HX H).
  - destruct (has_dir f l) eqn:HD; (eapply BothLeft; [intros ? ?; discriminate | cbn [dstep]; rewrite HD; reflexivity | apply (IH _ _ _ _ _ _ _ HX H)]).
  - left_step. apply (IH _ _ _ _ _ _ HX H).
  - destruct (file f l n) eqn:HD; (eapply BothLeft; [intros ? ?; discriminate | cbn [dstep]; rewrite HD; reflexivity | apply (IH _ _ _ _ _ _ _ HX H)]).
  - left_step. apply (IH _ _ _ _ _ _ _ HX H).
Qed.

Lemma both_left_exec2 {A B C D} (p : prog A) (k : A -> prog B) (k2 : B -> prog D) (q : prog C) : forall f f1 a g r s,
  exec p f = (f1, Ok a) -> both f1 (pbind (k a) k2) q g r s -> both f (pbind (pbind p k) k2) q g r s.
Proof.
  induction p as [[x|e]|l n c IH|l c IH|l n c IH|l n c IH|l n d c IH|l n c IH|l c IH]; intros f f1 a g r s HX H; cbn [exec] in HX; cbn [pbind].
  - apply pair_inj in HX as [<- HX]. apply Ok_inj in HX as <-. exact H.
  - apply pair_inj in HX as [_ HX]. discriminate.
  - left_step. apply (IH _ _ _ _ _ _ _ HX H).
  - left_step. apply (IH _ _ _ _ _ _ _ HX H).
  - left_step. apply (IH _ _ _ _ _ _ _ HX H).
  - destruct (has_dir f l) eqn:HD; (eapply BothLeft; [intros ? ?; discriminate | cbn [dstep]; rewrite HD; reflexivity | apply (IH _ _ _ _ _ _ _ HX H)]).
  - left_step. apply (IH _ _ _ _ _ _ HX H).
  - destruct (file f l n) eqn:HD; (eapply BothLeft; [intros ? ?; discriminate | cbn [dstep]; rewrite HD; reflexivity | apply (IH _ _ _ _ _ _ _ HX H)]).
  - left_step. apply (IH _ _ _ _ _ _ _ HX H).
Qed.

Lemma both_left_done {A C} (p : prog A) : forall f g r (s : res C), exec p f = (g, r) -> both f p (Done s) g r s.
Proof.
  induction p as [x|l n c IH|l c IH|l n c IH|l n c IH|l n d c IH|l n c IH|l c IH]; intros f g r s HX; cbn [exec] in HX.
  - apply pair_inj in HX as [<- <-]. constructor.
  - left_step. apply (IH _ _ _ _ _ HX).
  - left_step. apply (IH _ _ _ _ _ HX).
  - left_step. apply (IH _ _ _ _ _ HX).
  - destruct (has_dir f l) eqn:HD; (eapply BothLeft; [intros ? ?; discriminate | cbn [dstep]; rewrite HD; reflexivity | apply (IH _ _ _ _ _ HX)]).
  - left_step. apply (IH _ _ _ _ HX).
  - destruct (file f l n) eqn:HD; (eapply BothLeft; [intros ? ?; discriminate | cbn [dstep]; rewrite HD; reflexivity | apply (IH _ _ _ _ _ HX)]).
  - left_step. apply (IH _ _ _ _ _ HX).
Qed.

Lemma both_right_exec {A C} (p : prog A) (q : prog C) : forall f f1 g r s, exec q f = (f1, s) -> both f1 p (Done s) g r s -> both f p q g r s.
Proof.
  induction q as [x|l n c IH|l c IH|l n c IH|l n c IH|l n d c IH|l n c IH|l c IH]; intros f f1 g r s HX H; cbn [exec] in HX.
  - apply pair_inj in HX as [<- <-]. exact H.
  - eapply BothRight; [intros ? ?; discriminate | reflexivity | apply (IH _ _ _ _ _ _ HX H)].
  - eapply BothRight; [intros ? ?; discriminate | reflexivity | apply (IH _ _ _ _ _ _ HX H)].
  - eapply BothRight; [intros ? ?; discriminate | reflexivity | apply (IH _ _ _ _ _ _ HX H)].
  - destruct (has_dir f l) eqn:HD; (eapply BothRight; [intros ? ?; discriminate | cbn [dstep]; rewrite HD; reflexivity | apply (IH _ _ _ _ _ _ HX H)]).
  - eapply BothRight; [intros ? ?; discriminate | reflexivity | apply (IH _ _ _ _ _ HX H)].
  - destruct (file f l n) eqn:HD; (eapply BothRight; [intros ? ?; discriminate | cbn [dstep]; rewrite HD; reflexivity | apply (IH _ _ _ _ _ _ HX H)]).
  - eapply BothRight; [intros ? ?; discriminate | reflexivity | apply (IH _ _ _ _ _ _ HX H)].
Qed.

(** ** C49 *)

(** REFUTED on one location, for any two commands that succeed: if the first has loaded the set
    when the second runs, both report success, and the effect of the second is lost. *)
Theorem C49_lost_update_refuted : forall l f ks c1 c2 es1 es2 g1 g2, loadable f l ks -> text_ok (ks_name ks) -> kcmd_ok c1 -> kcmd_ok c2 ->
  exec (kcmd_prog l c1 es1) f = (g1, Ok tt) -> exec (kcmd_prog l c2 es2) f = (g2, Ok tt) ->
  exists g ks1, both f (kcmd_prog l c1 es1) (kcmd_prog l c2 es2) g (Ok tt) (Ok tt) /\ loadable g1 l ks1 /\
    exists ks', loadable g l ks' /\ forall n, ring_of ks' n = ring_of ks1 n.
Proof.
  intros l f ks c1 c2 es1 es2 g1 g2 HL HN H1 H2 X1 X2. pose proof (loadable_open _ _ _ HL) as HO. pose proof (opened_dir f l None ks _ HO) as HD.
  pose proof (generic_exec _ _ _ HL) as EG. pose proof (made_open _ _ _ HO) as M. pose proof (made_inv _ M) as I.
  destruct (C47_command l f ks c1 es1 g1 (Ok tt) HL HN H1 X1) as [(_ & (ks1 & r1 & L1 & _ & _ & _ & RC1 & RE1) & _)|((e & C) & _)]; [|discriminate].
  destruct (C47_command l f ks c2 es2 g2 (Ok tt) HL HN H2 X2) as [(_ & _ & _ & HD2 & _)|((e & C) & _)]; [|discriminate].
  destruct (cmd_shape l f ks c1 es1 HL HN H1) as [(e & C & _)|(ks' & r' & ES & RC & RE & _ & _)]; [congruence|].
  assert (DO : draws_ok (op_of c1)) by (destruct c1; exact H1).
  assert (M' : made ks') by (change ks' with (fst (ks', Ok tt)); rewrite <- ES, step_run; apply made_run; [exact M | repeat constructor; exact DO]).
  destruct (name_step ks (op_of c1) I) as (N1 & _). rewrite ES in N1. cbn [fst] in N1. assert (HN' : text_ok (ks_name ks')) by (rewrite N1; exact HN).
  assert (HDg : has_dir g2 l = true) by (rewrite HD2; exact HD).
  destruct (WriteSet_total ks' l es1 g2 HDg (made_wf _ M')) as (g3 & HW).
  destruct (stored_again ks' l None None es1 g2 g3 M' HN' Logic.I HW) as (_ & S2 & ks3 & S3 & (_ & _ & _ & _ & E5 & _) & _).
  (* the set written by the first command, as loaded *)
  destruct (cmd_final l f ks c1 es1 g1 ks' HL ES H1 X1) as (ga & HWa & HGa).
  destruct (stored_again ks' l None None es1 f ga M' HN' Logic.I HWa) as (_ & _ & ksa & Sa & (_ & _ & _ & _ & Ea & _) & _).
  assert (RR : forall n, ring_of ks1 n = ring_of ks' n).
  { pose proof L1 as L1'. apply loadable_open in L1'. intros n. pose proof L1' as Q. apply open_ok in Q as (s1 & m1 & l1 & A1 & A2 & _).
    pose proof Sa as Q. apply open_ok in Q as (s2 & m2 & l2 & B1 & B2 & _).
    assert (FM : file g1 l meta_file = file ga l meta_file) by (apply HGa; intros m _; right; intros E; symmetry in E; exact (key_file_meta _ E)).
    cbn [file_reader disk_reader rd_meta] in A1, B1. rewrite FM in A1. rewrite A1 in B1. apply Ok_inj in B1 as <-. rewrite A2 in B2. apply Ok_inj in B2 as <-.
    rewrite <- Ea. assert (A1' : rd_meta (file_reader g1 l) = Ok s1) by (cbn [file_reader rd_meta]; rewrite FM; exact A1).
    rewrite (open_ring _ _ _ _ _ L1' A1' A2 n), (open_ring _ _ _ _ _ Sa A1 A2 n). destruct (assoc Z.eqb (m_versions m1) n) as [v|] eqn:EA; [|reflexivity].
    cbn [file_reader disk_reader rd_key]. rewrite HGa; [reflexivity|]. intros m ->. right. intros E. apply key_file_inj in E as ->.
    assert (RN : ring_of ksa m = None).
    { rewrite Ea, RE. inversion RC as [| | |? ? _ A]; subst. unfold ring_revoke in A. destruct (ring_of ks m) as [[[] ?]|]; try discriminate. apply Some_inj in A as <-. rewrite Z.eqb_refl. reflexivity. }
    destruct (open_ok _ _ _ Sa) as (s3 & m3 & l3 & C1 & C2 & _ & _ & _ & _ & _ & _ & _ & CO & CM & _).
    cbn [disk_reader file_reader rd_meta] in C1. rewrite A1 in C1. apply Ok_inj in C1 as <-. rewrite A2 in C2. apply Ok_inj in C2 as <-.
    pose proof (assoc_combine_nums (m_versions m1) m 0) as AC. rewrite EA in AC. destruct AC as (i & AC & _).
    assert (K : assoc Z.eqb (ks_mvers ksa) m = Some (0 + i)%nat) by (rewrite CM; unfold meta_versions; rewrite map_length; exact AC).
    destruct (ring_known ksa m _ (inv_open _ _ _ Sa) K) as (k & _ & C). congruence. }
  destruct c1 as [s size ds|n|n|n]; cbn [kcmd_prog op_of step] in *.
  - exists g3, ks1. split; [|split; [exact L1|]; exists ks3; split; [unfold loadable; rewrite exec_open, S3; reflexivity | intros n; rewrite E5, RR; reflexivity]].
    unfold AddKeyCmd. apply (both_left_exec _ _ _ f f ks _ _ _ EG). apply (both_right_exec _ _ _ _ _ _ _ X2). apply both_left_done.
    rewrite ES. cbn [pure pbind]. rewrite exec_update by exact HDg. exact HW.
  - exists g3, ks1. split; [|split; [exact L1|]; exists ks3; split; [unfold loadable; rewrite exec_open, S3; reflexivity | intros m; rewrite E5, RR; reflexivity]].
    unfold PromoteCmd, ChangeCmd. apply (both_left_exec _ _ _ f f ks _ _ _ EG). apply (both_right_exec _ _ _ _ _ _ _ X2). apply both_left_done.
    unfold PromoteCmd in X1. rewrite (exec_change _ _ _ _ _ _ HL) in X1. destruct (n <? 0); [discriminate|]. rewrite ES. cbn [pure pbind]. rewrite exec_update by exact HDg. exact HW.
  - exists g3, ks1. split; [|split; [exact L1|]; exists ks3; split; [unfold loadable; rewrite exec_open, S3; reflexivity | intros m; rewrite E5, RR; reflexivity]].
    unfold DemoteCmd, ChangeCmd. apply (both_left_exec _ _ _ f f ks _ _ _ EG). apply (both_right_exec _ _ _ _ _ _ _ X2). apply both_left_done.
    unfold DemoteCmd in X1. rewrite (exec_change _ _ _ _ _ _ HL) in X1. destruct (n <? 0); [discriminate|]. rewrite ES. cbn [pure pbind]. rewrite exec_update by exact HDg. exact HW.
  - destruct (WriteSet_spec _ _ _ _ _ _ _ (made_inv _ M') HW) as (_ & _ & S5 & _ & _ & S6).
    assert (RK : exists k, ring_of ks n = Some (INACTIVE, k)).
    { inversion RC as [| | |? ? _ A]; subst. unfold ring_revoke in A. destruct (ring_of ks n) as [[[] k]|]; try discriminate. exists k. reflexivity. }
    destruct RK as (k & RK). pose proof (Revoke_ok ks n k I RK) as RO. rewrite ES in RO. apply pair_inj in RO as [EK _].
    destruct (ring_entry ks n INACTIVE k I RK) as (o & A1 & A2 & _ & _).
    assert (HF : exists x, file g3 l (key_file n) = Some x).
    { rewrite <- (proj2 (inv_mvers ks I n o (assoc_In Z.eqb_eq A1))). assert (HI : In (o, k) (ks_vkeys ks')) by (rewrite EK; exact (assoc_In Nat.eqb_eq A2)).
      destruct (S6 eq_refl (o, k) HI) as (e & s & _ & EF). exists s. unfold num_of in EF. cbn [fst] in EF. rewrite EK in EF. exact EF. }
    destruct HF as (x & HF). exists (del_file g3 l (key_file n)), ks1. split.
    + unfold RevokeCmd, ChangeCmd. apply (both_left_exec2 _ _ _ _ f f ks _ _ _ EG). apply (both_right_exec _ _ _ _ _ _ _ X2). apply both_left_done.
      unfold RevokeCmd in X1. rewrite exec_bind, (exec_change _ _ _ _ _ _ HL) in X1. destruct (n <? 0); [discriminate|]. rewrite ES. cbn [pure pbind].
      rewrite exec_bind, exec_update, HW by exact HDg. rewrite exec_bind. unfold CreateWriter, first_accepting, FileWriter_CreateWriter. cbn [pbind exec].
      rewrite S5, HDg. cbn [pbind exec RemoveKey]. rewrite HF. reflexivity.
    + split; [exact L1|]. pose proof (set_writes_done ks' l es1 g2 g3 (made_inv _ M') (made_wf _ M') HDg HW) as SD.
      destruct (load_mixed l ks' (del_file g3 l (key_file n)) M' HN') as (ks4 & L4 & R4).
      * rewrite file_del, str_eqb_refl, key_meta_eqb. apply SD. left. reflexivity.
      * intros m s k' HR. destruct (ring_entry ks' m s k' (made_inv _ M') HR) as (o' & B1 & B2 & _). apply assoc_In in B2; [|exact Nat.eqb_eq].
        exists (key_text k'). split.
        -- rewrite file_del, str_eqb_refl, key_file_eqb. cbn [andb]. destruct (n =? m) eqn:E.
           ++ apply Z.eqb_eq in E as ->. rewrite EK, ring_revoke_eq, Z.eqb_refl in HR. discriminate.
           ++ apply SD. right. apply in_map_iff. exists (o', k'). split; [|exact B2]. unfold num_of. cbn [fst snd]. rewrite (proj2 (inv_mvers ks' (made_inv _ M') m o' (assoc_In Z.eqb_eq B1))). reflexivity.
        -- rewrite <- (inv_type ks' (made_inv _ M') o' k' B2). apply key_rt. apply (proj1 (Forall_forall _ _) (made_wf _ M') (o', k') B2).
      * exists ks4. split; [exact L4|]. intros m. rewrite R4, RR. reflexivity.
Qed.
Print Assumptions C49_lost_update_refuted.

(** Which no sequential order allows, for instance for two [addkey]: a version is missing. *)
Example C49_case : let c b := CmdAddKey ACTIVE (-1) [zero_draw b] in
  exists g12 ks12 g1 ks1, loadable g12 (bs "/hmac") ks12 /\ loadable g1 (bs "/hmac") ks1 /\
    exec (kcmd_prog (bs "/hmac") (c x01) one_env) test_disk = (g1, Ok tt) /\
    (exists g2, exec (kcmd_prog (bs "/hmac") (c x02) one_env) test_disk = (g2, Ok tt)) /\
    exec (kcmd_prog (bs "/hmac") (c x02) one_env) g1 = (g12, Ok tt) /\
    ring_of ks12 4 <> None /\ ring_of ks1 3 <> None /\ ring_of ks1 4 = None.
Proof.
  eexists _, _, _, _. split; [|split; [|split; [vm_compute; reflexivity|]; split; [eexists; vm_compute; reflexivity|]; split; [vm_compute; reflexivity|]]].
  1,2: vm_compute; reflexivity. split; [vm_compute; discriminate|]. split; [vm_compute; discriminate | vm_compute; reflexivity].
Qed.

(** What holds: commands on different locations do not disturb each other. *)
Fixpoint confined {A} (l : str) (p : prog A) : Prop :=
  match p with
  | Done _ => True
  | Read l' _ k => l' = l /\ forall o, confined l (k o)
  | IsDir l' k => l' = l /\ forall b, confined l (k b)
  | IsFile l' _ k => l' = l /\ forall b, confined l (k b)
  | OpenW l' _ k => l' = l /\ forall b, confined l (k b)
  | Write l' _ _ k => l' = l /\ confined l k
  | Remove l' _ k => l' = l /\ forall b, confined l (k b)
  | List _ _ => False
  end.
Lemma confined_bind {A B} l (p : prog A) (q : A -> prog B) : confined l p -> (forall a, confined l (q a)) -> confined l (pbind p q).
Proof. induction p as [[a|e]|l' n k IH|l' k IH|l' n k IH|l' n k IH|l' n d k IH|l' n k IH|l' k IH]; cbn [confined pbind]; intros R Q; auto; try contradiction; try (destruct R as [-> R]; split; auto). Qed.

(** Two disks with the same directory [l]. *)
Definition agree (l : str) (f g : disk) : Prop := has_dir f l = has_dir g l /\ forall n, file f l n = file g l n.

Lemma set_file_agree l n c f g : agree l f g -> agree l (set_file f l n c) (set_file g l n c).
Proof.
  intros [A B]. split; [rewrite !has_dir_set; exact A|]. intros n'. destruct (has_dir f l) eqn:E.
  - rewrite !file_set by congruence. rewrite B. reflexivity.
  - assert (E' : has_dir g l = false) by congruence. unfold set_file, has_dir in *. destruct (assoc str_eqb f l); [discriminate|]. destruct (assoc str_eqb g l); [discriminate|]. apply B.
Qed.
Lemma file_set_other f l n c l' n' : l' <> l -> file (set_file f l n c) l' n' = file f l' n'.
Proof.
  intros H. destruct (has_dir f l) eqn:E; [rewrite file_set by exact E; rewrite (str_eqb_neq l l') by congruence; reflexivity|].
  unfold set_file, has_dir in *. destruct (assoc str_eqb f l); [discriminate | reflexivity].
Qed.

(** One call of a confined program: what it sees and does at [l], and nothing elsewhere. *)
Lemma dstep_confined {A} l (p : prog A) f f1 p1 : confined l p -> dstep f p = (f1, p1) ->
  confined l p1 /\ (forall l', l' <> l -> agree l' f1 f) /\ (forall g, agree l f g -> exists g1, dstep g p = (g1, p1) /\ agree l f1 g1) /\
  exists g, exec p f = exec p1 f1 /\ g = f.
Proof.
  intros CF H. assert (AR : forall l' (x : disk), agree l' x x) by (intros l' x; split; reflexivity).
  destruct p as [r|l0 n k|l0 k|l0 n k|l0 n k|l0 n d k|l0 n k|l0 k]; cbn [confined dstep exec] in *; try contradiction; try (destruct CF as [-> CF]).
  - apply pair_inj in H as [<- <-]. split; [exact I|]. split; [intros; apply AR|]. split; [|exists f; split; reflexivity]. intros g HA. exists g. split; [reflexivity | exact HA].
  - apply pair_inj in H as [<- <-]. split; [apply CF|]. split; [intros; apply AR|]. split; [|exists f; split; reflexivity]. intros g HA. exists g. rewrite (proj2 HA). split; [reflexivity | exact HA].
  - apply pair_inj in H as [<- <-]. split; [apply CF|]. split; [intros; apply AR|]. split; [|exists f; split; reflexivity]. intros g HA. exists g. rewrite (proj1 HA). split; [reflexivity | exact HA].
  - apply pair_inj in H as [<- <-]. split; [apply CF|]. split; [intros; apply AR|]. split; [|exists f; split; reflexivity]. intros g HA. exists g. rewrite (proj2 HA). split; [reflexivity | exact HA].
  - destruct (has_dir f l) eqn:HD; apply pair_inj in H as [<- <-]; (split; [apply CF|]).
    + split; [intros l' Hl; split; [apply has_dir_set | intros n'; apply file_set_other, Hl]|]. split; [|exists f; split; reflexivity].
      intros g HA. exists (set_file g l n []). rewrite <- (proj1 HA), HD. split; [reflexivity | apply set_file_agree, HA].
    + split; [intros; apply AR|]. split; [|exists f; split; reflexivity]. intros g HA. exists g. rewrite <- (proj1 HA), HD. split; [reflexivity | exact HA].
  - apply pair_inj in H as [<- <-]. split; [exact CF|]. split; [|split; [|exists f; split; reflexivity]].
    + intros l' Hl. split; [apply has_dir_put|]. intros n'. rewrite file_put, (str_eqb_neq l l') by congruence. cbn [andb]. destruct (file f l n); reflexivity.
    + intros g HA. exists (put g l n d). split; [reflexivity|]. unfold put. rewrite <- (proj2 HA). destruct (file f l n); [apply set_file_agree, HA | exact HA].
  - destruct (file f l n) eqn:HF; apply pair_inj in H as [<- <-]; (split; [apply CF|]).
    + split; [intros l' Hl; split; [apply has_dir_del | intros n'; rewrite file_del, (str_eqb_neq l l') by congruence; reflexivity]|]. split; [|exists f; split; reflexivity].
      intros g HA. exists (del_file g l n). rewrite <- (proj2 HA), HF. split; [reflexivity|]. split; [rewrite !has_dir_del; apply HA | intros n'; rewrite !file_del, (proj2 HA); reflexivity].
    + split; [intros; apply AR|]. split; [|exists f; split; reflexivity]. intros g HA. exists g. rewrite <- (proj2 HA), HF. split; [reflexivity | exact HA].
Qed.

Lemma dstep_exec {A} (p : prog A) f f1 p1 : dstep f p = (f1, p1) -> exec p f = exec p1 f1.
Proof.
  destruct p; cbn [dstep exec]; intros H; try (apply pair_inj in H as [<- <-]; reflexivity).
  - destruct (has_dir f l); apply pair_inj in H as [<- <-]; reflexivity.
  - destruct (file f l n); apply pair_inj in H as [<- <-]; reflexivity.
Qed.

Lemma agree_sym l f g : agree l f g -> agree l g f.
Proof. intros [A B]. split; [symmetry; exact A | intros n; symmetry; apply B]. Qed.
Lemma agree_trans l f g h : agree l f g -> agree l g h -> agree l f h.
Proof. intros [A B] [C D]. split; [congruence | intros n; rewrite B; apply D]. Qed.

Lemma exec_confined {A} l (p : prog A) : forall f g f1 r, confined l p -> exec p f = (f1, r) -> agree l f g ->
  (exists g1, exec p g = (g1, r) /\ agree l f1 g1) /\ forall l', l' <> l -> agree l' f1 f.
Proof.
  assert (AR : forall l' (x : disk), agree l' x x) by (intros l' x; split; reflexivity).
  assert (STEP : forall (q q1 : prog A) f g f0 f1 r, dstep f q = (f0, q1) -> confined l q -> exec q f = (f1, r) -> agree l f g ->
    (forall g, confined l q1 -> exec q1 f0 = (f1, r) -> agree l f0 g -> (exists g1, exec q1 g = (g1, r) /\ agree l f1 g1) /\ forall l', l' <> l -> agree l' f1 f0) ->
    (exists g1, exec q g = (g1, r) /\ agree l f1 g1) /\ forall l', l' <> l -> agree l' f1 f).
  { intros q q1 f g f0 f1 r HS CF HX HA IH. destruct (dstep_confined l q f f0 q1 CF HS) as (C1 & C2 & C3 & _). destruct (C3 g HA) as (g0 & HS' & HA').
    rewrite (dstep_exec _ _ _ _ HS) in HX. destruct (IH g0 C1 HX HA') as [(g1 & E & HA1) FR]. rewrite <- (dstep_exec _ _ _ _ HS') in E.
    split; [exists g1; split; assumption|]. intros l' Hl. apply (agree_trans l' f1 f0 f); [apply FR, Hl | apply C2, Hl]. }
  induction p as [x|l' n k IH|l' k IH|l' n k IH|l' n k IH|l' n d k IH|l' n k IH|l' k IH]; intros f g f1 r CF HX HA.
  - cbn [exec] in *. apply pair_inj in HX as [<- <-]. split; [exists g; split; [reflexivity | exact HA] | intros; apply AR].
  - eapply STEP; [reflexivity | exact CF | exact HX | exact HA |]. intros g'. apply IH.
  - eapply STEP; [reflexivity | exact CF | exact HX | exact HA |]. intros g'. apply IH.
  - eapply STEP; [reflexivity | exact CF | exact HX | exact HA |]. intros g'. apply IH.
  - destruct (has_dir f l') eqn:HD; (eapply STEP; [cbn [dstep]; rewrite HD; reflexivity | exact CF | exact HX | exact HA |]); intros g'; apply IH.
  - eapply STEP; [reflexivity | exact CF | exact HX | exact HA |]. intros g'. apply IH.
  - destruct (file f l' n) eqn:HD; (eapply STEP; [cbn [dstep]; rewrite HD; reflexivity | exact CF | exact HX | exact HA |]); intros g'; apply IH.
  - destruct CF.
Qed.

Lemma both_confined {A B} l1 l2 f (p : prog A) (q : prog B) g r s : l1 <> l2 -> both f p q g r s -> confined l1 p -> confined l2 q ->
  (exists g1, exec p f = (g1, r) /\ agree l1 g g1) /\ (exists g2, exec q f = (g2, s) /\ agree l2 g g2) /\ forall l, l <> l1 -> l <> l2 -> agree l g f.
Proof.
  intros NE H. assert (AR : forall l' (x : disk), agree l' x x) by (intros l' x; split; reflexivity).
  induction H as [f r s|f p q f' p' g r s _ HS H IH|f p q f' q' g r s _ HS H IH]; intros CP CQ.
  - split; [exists f; split; [reflexivity | apply AR]|]. split; [exists f; split; [reflexivity | apply AR] | intros; apply AR].
  - destruct (dstep_confined l1 p f f' p' CP HS) as (C1 & C2 & _). destruct (IH C1 CQ) as ((g1 & E1 & A1) & (g2 & E2 & A2) & FR).
    split; [exists g1; split; [rewrite (dstep_exec _ _ _ _ HS); exact E1 | exact A1]|]. split.
    + destruct (exec_confined l2 q f' f g2 s CQ E2 (C2 l2 ltac:(congruence))) as [(g3 & E3 & A3) _]. exists g3. split; [exact E3 | apply (agree_trans l2 _ g2); assumption].
    + intros l N1 N2. apply (agree_trans l _ f'); [apply FR; assumption | apply C2, N1].
  - destruct (dstep_confined l2 q f f' q' CQ HS) as (C1 & C2 & _). destruct (IH CP C1) as ((g1 & E1 & A1) & (g2 & E2 & A2) & FR).
    split; [|split].
    + destruct (exec_confined l1 p f' f g1 r CP E1 (C2 l1 ltac:(congruence))) as [(g3 & E3 & A3) _]. exists g3. split; [exact E3 | apply (agree_trans l1 _ g1); assumption].
    + exists g2. split; [rewrite (dstep_exec _ _ _ _ HS); exact E2 | exact A2].
    + intros l N1 N2. apply (agree_trans l _ f'); [apply FR; assumption | apply C2, N2].
Qed.

Lemma confined_load l cr t : forall vs o p vk hk, confined l (load_files l cr t o vs p vk hk).
Proof.
  induction vs as [|v vs IH]; intros o p vk hk; cbn [load_files]; [exact I|].
  apply confined_bind; [destruct (status_eqb _ _); [destruct p|]; exact I|]. intros p'.
  apply confined_bind; [unfold GetKey; apply confined_bind; [split; [reflexivity | intros []; exact I] | intros s; destruct cr; exact I]|]. intros s.
  apply confined_bind; [exact I|]. intros k. apply confined_bind; [exact I|]. intros h. apply IH.
Qed.
Lemma confined_generic l cr : confined l (CreateGenericKeyczar (Some l) cr).
Proof.
  unfold CreateGenericKeyczar. apply confined_bind; [split; [reflexivity | intros [|]; exact I]|]. intros _.
  unfold open_files. apply confined_bind; [split; [reflexivity | intros []; exact I]|]. intros s. apply confined_bind; [exact I|]. intros m.
  destruct (negb _); [exact I|]. destruct (_ && _); [exact I|]. apply confined_bind; [apply confined_load|]. intros [[p vk] hk]. exact I.
Qed.
Lemma confined_WriteFile l d n : confined l (WriteFile d l n).
Proof. split; [reflexivity|]. intros [|]; [split; [reflexivity | exact I] | exact I]. Qed.
Lemma confined_update l ks enc es : confined l (UpdateGenericKeyczar ks (Some l) enc es).
Proof.
  unfold UpdateGenericKeyczar. apply confined_bind; [split; [reflexivity | intros [|]; exact I]|]. intros _. unfold WriteSet.
  apply confined_bind; [unfold WriteMetadata; apply confined_bind; [exact I | intros s; apply confined_WriteFile]|]. intros _.
  generalize 0%nat. induction (ks_vkeys ks) as [|[o k] vk IH]; intros i; cbn [write_keys]; [exact I|]. apply confined_bind; [|intros _; apply IH].
  unfold WriteKey. apply confined_bind; [exact I|]. intros s. apply confined_bind; [destruct enc; exact I|]. intros s'. apply confined_WriteFile.
Qed.
Lemma confined_change change l n es : confined l (ChangeCmd change (Some l) n es).
Proof.
  unfold ChangeCmd. apply confined_bind; [apply confined_generic|]. intros ks. destruct (n <? 0); [exact I|]. destruct (change ks n) as [ks' r].
  apply confined_bind; [exact I|]. intros _. apply confined_update.
Qed.
Lemma confined_cmd l c es : confined l (kcmd_prog l c es).
Proof.
  destruct c as [s size ds|n|n|n]; cbn [kcmd_prog]; try apply confined_change.
  - unfold AddKeyCmd. apply confined_bind; [apply confined_generic|]. intros ks. destruct (AddVersion _ _ _ _) as [ks' r]. apply confined_bind; [exact I|]. intros _. apply confined_update.
  - unfold RevokeCmd. apply confined_bind; [apply confined_change|]. intros _. apply confined_bind; [split; [reflexivity | intros [|]; exact I]|]. intros _.
    split; [reflexivity | intros [|]; exact I].
Qed.

(** Any interleaving has the results of running one after the other, in either order.  Missing:
    one location, see above. *)
Theorem C49_different_locations_partial : forall l1 l2 c1 c2 es1 es2 f g r1 r2, l1 <> l2 ->
  both f (kcmd_prog l1 c1 es1) (kcmd_prog l2 c2 es2) g r1 r2 ->
  (exists g1 g2, exec (kcmd_prog l1 c1 es1) f = (g1, r1) /\ exec (kcmd_prog l2 c2 es2) g1 = (g2, r2) /\ same_disk g g2) /\
  (exists g1 g2, exec (kcmd_prog l2 c2 es2) f = (g1, r2) /\ exec (kcmd_prog l1 c1 es1) g1 = (g2, r1) /\ same_disk g g2).
Proof.
  intros l1 l2 c1 c2 es1 es2 f g r1 r2 NE H. assert (NE' : l2 <> l1) by congruence.
  destruct (both_confined l1 l2 f _ _ g r1 r2 NE H (confined_cmd l1 c1 es1) (confined_cmd l2 c2 es2)) as ((g1 & E1 & A1) & (g2 & E2 & A2) & FR).
  destruct (exec_confined l1 _ f f g1 r1 (confined_cmd l1 c1 es1) E1 (conj eq_refl (fun _ => eq_refl))) as [_ F1].
  destruct (exec_confined l2 _ f f g2 r2 (confined_cmd l2 c2 es2) E2 (conj eq_refl (fun _ => eq_refl))) as [_ F2].
  assert (SD : forall a b, (forall l, agree l a b) -> same_disk a b) by (intros a b HA; split; [intros l; apply HA | intros l n; apply HA]).
  assert (DEC : forall l l' : str, {l = l'} + {l <> l'}) by apply (list_eq_dec Byte.byte_eq_dec).
  split.
  - destruct (exec_confined l2 _ f g1 g2 r2 (confined_cmd l2 c2 es2) E2 (agree_sym _ _ _ (F1 l2 NE'))) as [(g3 & E3 & A3) _].
    destruct (exec_confined l2 _ g1 g1 g3 r2 (confined_cmd l2 c2 es2) E3 (conj eq_refl (fun _ => eq_refl))) as [_ F3].
    exists g1, g3. split; [exact E1|]. split; [exact E3|]. apply SD. intros l. destruct (DEC l l2) as [->|N2]; [apply (agree_trans _ _ g2); assumption|].
    apply agree_sym, (agree_trans l _ g1); [apply F3, N2|]. destruct (DEC l l1) as [->|N1]; [apply agree_sym, A1|].
    apply (agree_trans l _ f); [apply F1, N1 | apply agree_sym, FR; assumption].
  - destruct (exec_confined l1 _ f g2 g1 r1 (confined_cmd l1 c1 es1) E1 (agree_sym _ _ _ (F2 l1 NE))) as [(g3 & E3 & A3) _].
    destruct (exec_confined l1 _ g2 g2 g3 r1 (confined_cmd l1 c1 es1) E3 (conj eq_refl (fun _ => eq_refl))) as [_ F3].
    exists g2, g3. split; [exact E2|]. split; [exact E3|]. apply SD. intros l. destruct (DEC l l1) as [->|N1]; [apply (agree_trans _ _ g1); assumption|].
    apply agree_sym, (agree_trans l _ g2); [apply F3, N1|]. destruct (DEC l l2) as [->|N2]; [apply agree_sym, A2|].
    apply (agree_trans l _ f); [apply F2, N2 | apply agree_sym, FR; assumption].
Qed.
Print Assumptions C49_different_locations_partial.

(** ** C50 *)

(** *** Specification *)

(** A flag argument, [--name=value] with no further "=". *)
Definition no_eq (s : str) : Prop := ~ In "="%byte s.
Definition flag_arg (name val : str) : str := bs "--" ++ name ++ bs "=" ++ val.
Definition flag_names : list string := ["location"; "name"; "size"; "status"; "purpose"; "destination"; "version"; "asymmetric"; "crypter"]%string.
Definition command_names : list string := ["create"; "addkey"; "pubkey"; "promote"; "demote"; "revoke"; "genkey"]%string.
Definition named_flag (g : flag) : str :=
  bs match g with LOCATION => "location" | NAME => "name" | SIZE => "size" | STATUS => "status" | PURPOSE => "purpose"
     | DESTINATION => "destination" | VERSION_FLAG => "version" | ASYMMETRIC => "asymmetric" | CRYPTER => "crypter" end%string.

(** An argument that starts with "--" but is no flag argument: no "=" or more than one. *)
Definition malformed (a : str) : Prop :=
  exists rest, a = bs "--" ++ rest /\ (no_eq rest \/ exists x y z, rest = x ++ bs "=" ++ y ++ bs "=" ++ z).
(** One that does not start with "--". *)
Definition positional (a : str) : Prop := forall rest, a <> bs "--" ++ rest.

(** A command line is a list of arguments of these kinds; [meaning] gives the value of each flag. *)
Inductive arg := Flag (g : flag) (val : str) | Other (a : str).
Definition arg_ok (a : arg) : Prop := match a with Flag _ v => no_eq v | Other a => malformed a \/ positional a end.
Definition arg_str (a : arg) : str := match a with Flag g v => flag_arg (named_flag g) v | Other a => a end.
Fixpoint value (g : flag) (args : list arg) : option str :=
  match args with
  | [] => None
  | a :: args' => match value g args' with
                  | Some v => Some v
                  | None => match a with Flag g' v => if flag_eqb g' g then Some v else None | Other _ => None end
                  end
  end.

(** Decimal integers, with white space around. *)
Definition digit (c : byte) : Prop := 48 <= ord c <= 57.
Definition white (c : byte) : Prop := 9 <= ord c <= 13 \/ ord c = 32.
Definition decimal (ds : str) : Z := fold_left (fun a c => 10 * a + (ord c - 48)) ds 0.
Inductive integer : str -> Z -> Prop :=
| Integer w1 sign z ds w2 : Forall white w1 -> Forall white w2 -> ds <> [] -> Forall digit ds ->
    (sign = [] /\ z = decimal ds \/ sign = bs "+" /\ z = decimal ds \/ sign = bs "-" /\ z = - decimal ds) ->
    integer (w1 ++ sign ++ ds ++ w2) z.

(** *** Parsing *)

Lemma is_ws_white c : is_ws c = true <-> white c.
Proof. unfold is_ws, white. cbn zeta. lia. Qed.
Lemma is_digit_digit c : is_digit c = true <-> digit c.
Proof. unfold is_digit, digit. lia. Qed.

Lemma all_digits_spec : forall s a, all_digits s a = (if forallb is_digit s then Some (fold_left (fun a c => 10 * a + (ord c - 48)) s a) else None).
Proof.
  induction s as [|c s IH]; intros a; cbn [all_digits forallb fold_left]; [reflexivity|]. destruct (is_digit c); [|reflexivity]. cbn [andb].
  rewrite IH. replace (a * 10) with (10 * a) by lia. reflexivity.
Qed.

Lemma lstrip_split s : exists w, s = w ++ lstrip_ws s /\ Forall white w.
Proof.
  induction s as [|c s (w & E & F)]; cbn [lstrip_ws]; [exists []; split; [reflexivity | constructor]|].
  destruct (is_ws c) eqn:W; [exists (c :: w); split; [cbn [app]; rewrite <- E; reflexivity | constructor; [apply is_ws_white, W | exact F]] | exists []; split; [reflexivity | constructor]].
Qed.
Lemma lstrip_white w s : Forall white w -> lstrip_ws (w ++ s) = lstrip_ws s.
Proof. induction 1 as [|c w W _ IH]; [reflexivity|]. cbn [app lstrip_ws]. rewrite (proj2 (is_ws_white c) W). exact IH. Qed.
Lemma lstrip_stop c s : ~ white c -> lstrip_ws (c :: s) = c :: s.
Proof. intros H. cbn [lstrip_ws]. destruct (is_ws c) eqn:W; [apply is_ws_white in W; contradiction | reflexivity]. Qed.

Lemma strip_core w1 core w2 a b m : Forall white w1 -> Forall white w2 -> core = a :: m -> ~ white a -> (exists m', core = m' ++ [b]) -> ~ white b ->
  rev (lstrip_ws (rev (lstrip_ws (w1 ++ core ++ w2)))) = core.
Proof.
  intros F1 F2 E Ha (m' & E') Hb. rewrite (lstrip_white w1 _ F1). rewrite E at 1. cbn [app]. rewrite (lstrip_stop a _ Ha).
  change (a :: m ++ w2) with ((a :: m) ++ w2). rewrite <- E, rev_app_distr, lstrip_white by (apply Forall_rev, F2). rewrite E' at 1. rewrite rev_app_distr. cbn [rev app].
  rewrite (lstrip_stop b _ Hb). cbn [rev]. rewrite rev_involutive. symmetry. exact E'.
Qed.

(** What [--version] and [--size] accept. *)
Theorem C50_integers : forall s, (forall z, py_int s = Ok z <-> integer s z) /\ ((forall z, ~ integer s z) -> py_int s = Raise ValueError).
Proof.
  intros s.
  assert (FWD : forall z, py_int s = Ok z -> integer s z).
  { intros z H. unfold py_int in H. destruct (lstrip_split s) as (w1 & E1 & F1). destruct (lstrip_split (rev (lstrip_ws s))) as (w2 & E2 & F2).
    set (t := rev (lstrip_ws (rev (lstrip_ws s)))) in *. assert (ES : s = w1 ++ t ++ rev w2).
    { rewrite E1 at 1. f_equal. rewrite <- (rev_involutive (lstrip_ws s)). rewrite E2 at 1. rewrite rev_app_distr. reflexivity. }
    apply Forall_rev in F2. clearbody t. clear E1 E2.
    assert (DG : forall t' n, match t' with [] => None | _ :: _ => all_digits t' 0 end = Some n -> t' <> [] /\ Forall digit t' /\ n = decimal t').
    { intros t' n A. destruct t' as [|c0 t0]; [discriminate|]. rewrite all_digits_spec in A. destruct (forallb is_digit (c0 :: t0)) eqn:FB; [|discriminate]. apply Some_inj in A as <-.
      split; [discriminate|]. split; [|reflexivity]. apply Forall_forall. intros c HI. apply is_digit_digit. apply (proj1 (forallb_forall _ _) FB c HI). }
    assert (CASES : (exists t' n, t = "-"%byte :: t' /\ match t' with [] => None | _ :: _ => all_digits t' 0 end = Some n /\ z = - n) \/
                    (exists t', t = "+"%byte :: t' /\ match t' with [] => None | _ :: _ => all_digits t' 0 end = Some z) \/
                    match t with [] => None | _ :: _ => all_digits t 0 end = Some z).
    { cbn zeta in H. destruct t as [|c t']; [discriminate|]. destruct c; try (right; right; match goal with |- ?x = _ => destruct x as [n|]; [apply Ok_inj in H as ->; reflexivity | discriminate] end).
      - right. left. exists t'. split; [reflexivity|]. match goal with |- ?x = _ => destruct x as [n|]; [apply Ok_inj in H as ->; reflexivity | discriminate] end.
      - left. exists t'. destruct (match t' with [] => None | _ :: _ => all_digits t' 0 end) as [n|]; [|discriminate]. exists n. split; [reflexivity|]. split; [reflexivity|]. cbn [option_map] in H. apply Ok_inj in H as <-. reflexivity. }
    rewrite ES. destruct CASES as [(t' & n & -> & D & ->)|[(t' & -> & D)|D]]; apply DG in D as (D1 & D2 & ->).
    - change (w1 ++ ("-"%byte :: t') ++ rev w2) with (w1 ++ bs "-" ++ t' ++ rev w2). apply Integer; auto.
    - change (w1 ++ ("+"%byte :: t') ++ rev w2) with (w1 ++ bs "+" ++ t' ++ rev w2). apply Integer; auto.
    - change (w1 ++ t ++ rev w2) with (w1 ++ [] ++ t ++ rev w2). apply Integer; auto. }
  assert (BWD : forall z, integer s z -> py_int s = Ok z).
  { intros z H. destruct H as [w1 sign z ds w2 F1 F2 NE FD SG]. unfold py_int.
    assert (ND : forall c, digit c -> ~ white c) by (unfold digit, white; lia).
    assert (LAST : exists m b, ds = m ++ [b] /\ ~ white b).
    { destruct (exists_last NE) as (m & b & E). exists m, b. split; [exact E|]. apply ND. apply (proj1 (Forall_forall _ _) FD). rewrite E. apply in_or_app. right. left. reflexivity. }
    destruct LAST as (m & b & EL & Hb). assert (DG : match ds with [] => None | _ :: _ => all_digits ds 0 end = Some (decimal ds)).
    { destruct ds as [|c ds]; [contradiction|]. rewrite all_digits_spec. replace (forallb is_digit (c :: ds)) with true; [reflexivity|]. symmetry. apply forallb_forall. intros x HI.
      apply is_digit_digit, (proj1 (Forall_forall _ _) FD x HI). }
    assert (HD : exists c t, ds = c :: t /\ digit c) by (destruct ds as [|c t]; [contradiction|]; exists c, t; split; [reflexivity | apply (Forall_inv FD)]).
    destruct HD as (c & t & EC & HC).
    destruct SG as [[-> ->]|[[-> ->]|[-> ->]]].
    - cbn [app]. rewrite (strip_core w1 ds w2 c b t F1 F2 EC (ND c HC) (ex_intro _ m EL) Hb). cbn zeta. rewrite EC in *. unfold digit in HC.
      destruct c; try (rewrite DG; reflexivity); exfalso; vm_compute in HC; destruct HC as [HC1 HC2]; first [apply HC1; reflexivity | apply HC2; reflexivity].
    - rewrite (app_assoc (bs "+")). rewrite (strip_core w1 (bs "+" ++ ds) w2 "+"%byte b ds F1 F2 eq_refl) by
        (first [exact Hb | exists ("+"%byte :: m); rewrite EL; reflexivity | unfold white; vm_compute; intuition discriminate]).
      cbn [bs app]. change (bs "+" ++ ds) with ("+"%byte :: ds). cbn iota zeta. rewrite DG. reflexivity.
    - rewrite (app_assoc (bs "-")). rewrite (strip_core w1 (bs "-" ++ ds) w2 "-"%byte b ds F1 F2 eq_refl) by
        (first [exact Hb | exists ("-"%byte :: m); rewrite EL; reflexivity | unfold white; vm_compute; intuition discriminate]).
      change (bs "-" ++ ds) with ("-"%byte :: ds). cbn iota zeta. rewrite DG. reflexivity. }
  split; [intros z; split; auto|]. intros NI. destruct (py_int s) as [z|e] eqn:E; [contradiction (NI z (FWD z eq_refl))|].
  unfold py_int in E. destruct (match _ with [] => _ | _ :: _ => _ end) in E; [discriminate | congruence].
Qed.
Print Assumptions C50_integers.
Example C50_case_integers : integer (bs " 12 ") 12 /\ integer (bs "-3") (-3) /\ (forall z, ~ integer (bs "one") z).
Proof.
  split; [|split]; [apply C50_integers; vm_compute; reflexivity .. |]. intros z H. apply C50_integers in H. vm_compute in H. discriminate.
Qed.

Lemma split_none s : forall cur, no_eq s -> split_eq s cur = [cur ++ s].
Proof.
  induction s as [|c s IH]; intros cur H; cbn [split_eq]; [rewrite app_nil_r; reflexivity|]. destruct (beqb c "="%byte) eqn:E.
  - apply beqb_eq in E as ->. destruct H. left. reflexivity.
  - rewrite IH, <- app_assoc by (intros C; apply H; right; exact C). reflexivity.
Qed.
Lemma split_some s t : forall cur, no_eq s -> split_eq (s ++ bs "=" ++ t) cur = (cur ++ s) :: split_eq t [].
Proof.
  induction s as [|c s IH]; intros cur H; [cbn [app split_eq bs]; rewrite app_nil_r; reflexivity|]. cbn [app split_eq]. destruct (beqb c "="%byte) eqn:E.
  - apply beqb_eq in E as ->. destruct H. left. reflexivity.
  - rewrite IH, <- app_assoc by (intros C; apply H; right; exact C). reflexivity.
Qed.
Lemma split_length s : forall cur, exists a l, split_eq s cur = a :: l.
Proof. induction s as [|c s IH]; intros cur; cbn [split_eq]; [eexists _, _; reflexivity|]. destruct (beqb c "="%byte); [eexists _, _; reflexivity | apply IH]. Qed.
Lemma no_eq_dec s : no_eq s \/ exists a b, s = a ++ bs "=" ++ b /\ no_eq a.
Proof.
  induction s as [|c s [H|(a & b & -> & H)]]; [left; intros []| |]; (destruct (beqb c "="%byte) eqn:E; [apply beqb_eq in E as ->; right; exists []; eexists; split; [reflexivity | intros []] |]).
  - left. intros [C|C]; [apply beqb_neq in E; contradiction | contradiction].
  - right. exists (c :: a), b. split; [reflexivity|]. intros [C|C]; [apply beqb_neq in E; contradiction | contradiction].
Qed.

Lemma parse_flag name val argv fl : no_eq name -> no_eq val ->
  parse_flags (flag_arg name val :: argv) fl = let* g := GetFlag name in parse_flags argv (dict_set flag_eqb fl g val).
Proof. intros Hn Hv. unfold flag_arg. change (bs "--" ++ name ++ bs "=" ++ val) with ("-"%byte :: "-"%byte :: (name ++ bs "=" ++ val)). cbn [parse_flags]. rewrite (split_some name val [] Hn), (split_none val [] Hv). reflexivity. Qed.

Lemma parse_other a argv fl : malformed a \/ positional a -> parse_flags (a :: argv) fl = parse_flags argv fl.
Proof.
  intros [(rest & -> & H)|H].
  - change (bs "--" ++ rest) with ("-"%byte :: "-"%byte :: rest). cbn [parse_flags]. destruct H as [H|(x & y & z & ->)]; [rewrite (split_none rest [] H); reflexivity|].
    destruct (no_eq_dec x) as [Hx|(a & b & -> & Ha)].
    + rewrite (split_some x _ [] Hx). destruct (no_eq_dec y) as [Hy|(a & b & -> & Ha)].
      * rewrite (split_some y _ [] Hy). destruct (split_length z []) as (u & v & ->). reflexivity.
      * rewrite <- !app_assoc, (split_some a _ [] Ha). destruct (split_length (b ++ bs "=" ++ z) []) as (u & v & ->). reflexivity.
    + rewrite <- !app_assoc, (split_some a _ [] Ha). destruct (no_eq_dec b) as [Hb|(a' & b' & -> & Hb)].
      * rewrite (split_some b _ [] Hb). destruct (split_length (y ++ bs "=" ++ z) []) as (u & v & ->). reflexivity.
      * rewrite <- !app_assoc, (split_some a' _ [] Hb). destruct (split_length (b' ++ bs "=" ++ y ++ bs "=" ++ z) []) as (u & v & ->). reflexivity.
  - destruct a as [|c a]; [reflexivity|]. destruct c; try reflexivity. destruct a as [|c a]; [reflexivity|]. destruct c; try reflexivity. contradiction (H a eq_refl).
Qed.

Lemma parse_cases b : (forall argv fl, parse_flags (b :: argv) fl = parse_flags argv fl) \/
  exists n v, forall argv fl, parse_flags (b :: argv) fl = let* g := GetFlag n in parse_flags argv (dict_set flag_eqb fl g v).
Proof.
  destruct b as [|c b]; [left; reflexivity|]. destruct (byte_eq_dec c "-"%byte) as [->|N]; [|left; intros; destruct c; try reflexivity; contradiction N; reflexivity].
  destruct b as [|c b]; [left; reflexivity|]. destruct (byte_eq_dec c "-"%byte) as [->|N]; [|left; intros; destruct c; try reflexivity; contradiction N; reflexivity].
  cbn [parse_flags]. destruct (split_eq b []) as [|n [|v [|? ?]]]; [left; reflexivity .. | | left; reflexivity]. right. exists n, v. reflexivity.
Qed.

Lemma flag_eqb_eq a b : flag_eqb a b = true <-> a = b.
Proof. split; [destruct a, b; (reflexivity || discriminate) | intros <-; destruct a; reflexivity]. Qed.
Lemma GetFlag_named g : GetFlag (named_flag g) = Ok g.
Proof. destruct g; vm_compute; reflexivity. Qed.
Lemma named_no_eq g : no_eq (named_flag g).
Proof. unfold no_eq. destruct g; vm_compute; intuition discriminate. Qed.

Lemma parse_flags_value : forall args fl0, Forall arg_ok args -> exists fl, parse_flags (map arg_str args) fl0 = Ok fl /\
  forall g, assoc flag_eqb fl g = match value g args with Some v => Some v | None => assoc flag_eqb fl0 g end.
Proof.
  induction args as [|a args IH]; intros fl0 H; [exists fl0; split; [reflexivity | intros g; reflexivity]|].
  pose proof (Forall_inv H) as Ha. apply Forall_inv_tail in H. cbn [map]. destruct a as [g v|a]; cbn [arg_ok arg_str] in *.
  - rewrite parse_flag by (apply named_no_eq || exact Ha). rewrite GetFlag_named. cbn [bind]. destruct (IH (dict_set flag_eqb fl0 g v) H) as (fl & E & A).
    exists fl. split; [exact E|]. intros g'. rewrite A. cbn [value]. destruct (value g' args); [reflexivity|]. rewrite (assoc_set flag_eqb flag_eqb_eq). destruct (flag_eqb g g'); reflexivity.
  - rewrite parse_other by exact Ha. destruct (IH fl0 H) as (fl & E & A). exists fl. split; [exact E|]. intros g. rewrite A. cbn [value]. destruct (value g args); reflexivity.
Qed.

(** The last flag of a name counts; everything that is not a flag argument is passed over. *)
Theorem C50_flags : forall args, Forall arg_ok args -> exists fl, parse_flags (map arg_str args) [] = Ok fl /\ forall g, assoc flag_eqb fl g = value g args.
Proof. intros args H. destruct (parse_flags_value args [] H) as (fl & E & A). exists fl. split; [exact E|]. intros g. rewrite A. cbn [assoc]. destruct (value g args); reflexivity. Qed.
Print Assumptions C50_flags.

(** An unknown command changes nothing. *)
Theorem C50_unknown_command : forall gen a argv ds es f, ~ In a (map bs command_names) -> exec (main gen (a :: argv) ds es) f = (f, Raise KeyczarError).
Proof.
  intros gen a argv ds es f H. cbn [main]. replace (GetCommand a) with (@Raise command KeyczarError); [reflexivity|]. unfold GetCommand.
  replace (assoc str_eqb commands a) with (@None command); [reflexivity|]. symmetry. apply (assoc_None str_eqb_eq). exact H.
Qed.
Print Assumptions C50_unknown_command.

(** An unknown flag changes nothing, whatever the other arguments. *)
Theorem C50_unknown_flag : forall gen a argv name val ds es f, In (flag_arg name val) argv -> no_eq name -> no_eq val -> ~ In name (map bs flag_names) ->
  exec (main gen (a :: argv) ds es) f = (f, Raise KeyczarError).
Proof.
  intros gen a argv name val ds es f HI Hn Hv HU.
  assert (GN : GetFlag name = Raise KeyczarError).
  { unfold GetFlag. replace (assoc str_eqb flags name) with (@None flag); [reflexivity|]. symmetry. apply (assoc_None str_eqb_eq). exact HU. }
  assert (P : forall argv fl, In (flag_arg name val) argv -> parse_flags argv fl = Raise KeyczarError).
  { clear argv HI. induction argv as [|b argv IH]; intros fl HI; [destruct HI|]. destruct HI as [->|HI]; [rewrite parse_flag by assumption; rewrite GN; reflexivity|].
    destruct (parse_cases b) as [E|(n & v & E)]; rewrite E; [apply (IH _ HI)|].
    unfold GetFlag. destruct (assoc str_eqb flags n); [cbn [bind]; apply (IH _ HI) | reflexivity]. }
  cbn [main]. unfold GetCommand. destruct (assoc str_eqb commands a); [|reflexivity]. cbn [pure pbind]. rewrite P by (right; exact HI). reflexivity.
Qed.
Print Assumptions C50_unknown_flag.

(** A version that is not an integer changes nothing when the command needs it, nor does a size
    for [addkey] (which for a bad version does not run either). *)
Theorem C50_bad_number : forall gen (cmd : string) args ds es f v, Forall arg_ok args -> (forall z, ~ integer v z) ->
  value VERSION_FLAG args = Some v /\ In cmd ["promote"; "demote"; "revoke"; "addkey"]%string \/ value SIZE args = Some v /\ cmd = "addkey"%string ->
  exists e, exec (main gen (bs cmd :: map arg_str args) ds es) f = (f, Raise e).
Proof.
  intros gen cmd args ds es f v HA NI H. destruct (C50_flags args HA) as (fl & EP & EV). pose proof (proj2 (C50_integers v) NI) as PI.
  assert (EP' : parse_flags (bs cmd :: map arg_str args) [] = Ok fl).
  { rewrite parse_other; [exact EP|]. right. intros rest C. assert (IC : In cmd ["promote"; "demote"; "revoke"; "addkey"]%string) by (destruct H as [[_ ?]|[_ ->]]; [assumption | right; right; right; left; reflexivity]).
    cbn [In] in IC. destruct IC as [<-|[<-|[<-|[<-|[]]]]]; discriminate C. }
  assert (ADD : snd (int_flags fl) = None -> cmd = "addkey"%string -> exists e, exec (main gen (bs cmd :: map arg_str args) ds es) f = (f, Raise e)).
  { intros EI ->. cbn [main]. rewrite EP'. change (GetCommand (bs "addkey")) with (Ok ADDKEY). cbn [pure pbind]. destruct (int_flags fl) as [vo so]. cbn [snd] in EI. subst so.
    destruct (GetStatus _) as [s|e]; [|exists e; reflexivity]. cbn [pure pbind]. destruct (assoc flag_eqb fl CRYPTER) as [c|]; [|exists NameError; reflexivity].
    rewrite !exec_bind. pose proof (exec_reads _ (reads_location Crypter c) f) as ER. destruct (exec (read_location Crypter c) f) as [g [ks|e]]; cbn [fst] in ER; subst g; [exists NameError | exists e]; reflexivity. }
  assert (IFL : forall g, value g args = Some v -> int_flag fl g = Raise ValueError) by (intros g EG; unfold int_flag; rewrite EV, EG; exact PI).
  destruct H as [[HV HC]|[HS ->]].
  - assert (EI : int_flags fl = (None, None)) by (unfold int_flags; rewrite (IFL _ HV); reflexivity). cbn [In] in HC. destruct HC as [<-|[<-|[<-|[<-|[]]]]]; [| | |apply ADD; [rewrite EI|]; reflexivity].
    + exists NameError. cbn [main]. rewrite EP'. change (GetCommand (bs "promote")) with (Ok PROMOTE). cbn [pure pbind]. rewrite EI. reflexivity.
    + exists NameError. cbn [main]. rewrite EP'. change (GetCommand (bs "demote")) with (Ok DEMOTE). cbn [pure pbind]. rewrite EI. reflexivity.
    + exists NameError. cbn [main]. rewrite EP'. change (GetCommand (bs "revoke")) with (Ok REVOKE). cbn [pure pbind]. rewrite EI. reflexivity.
  - apply ADD; [|reflexivity]. unfold int_flags. destruct (int_flag fl VERSION_FLAG); [rewrite (IFL _ HS)|]; reflexivity.
Qed.
Print Assumptions C50_bad_number.

(** Well-formed command lines run the command they name, with the values they give. *)
Theorem C50_runs : forall gen args ds es, Forall arg_ok args -> let run (cmd : string) := main gen (bs cmd :: map arg_str args) ds es in
  let loc := value LOCATION args in
  (forall n v, value VERSION_FLAG args = Some v -> integer v n ->
     run "promote"%string = PromoteCmd loc n es /\ run "demote"%string = DemoteCmd loc n es /\ run "revoke"%string = RevokeCmd loc n es) /\
  run "pubkey"%string = PubKeyCmd loc (value DESTINATION args) /\
  (forall p, value PURPOSE args = Some (bs (match p with inl tt => "crypt" | inr tt => "sign" end)%string) ->
     run "create"%string = Create loc (text_of_str (match value NAME args with Some n => n | None => bs "Test" end))
                                   (Some (match p with inl tt => DECRYPT_AND_ENCRYPT | inr tt => SIGN_AND_VERIFY end)) (value ASYMMETRIC args)) /\
  (forall st z, (value VERSION_FLAG args = None \/ exists v n, value VERSION_FLAG args = Some v /\ integer v n) ->
     GetStatus (text_of_str (upper (match value STATUS args with Some s => s | None => bs "active" end))) = Ok st ->
     (value SIZE args = None /\ z = -1 \/ exists v, value SIZE args = Some v /\ integer v z) ->
     (value CRYPTER args = None -> run "addkey"%string = AddKeyCmd loc st None z ds es) /\
     (forall c, value CRYPTER args = Some c -> forall f, exec (run "addkey"%string) f =
        match exec (read_location Crypter c) f with (g, Ok ks) => exec (AddKeyCmd loc st (Some ks) z ds es) g | (g, Raise e) => (g, Raise e) end)).
Proof.
  intros gen args ds es HA run loc. destruct (C50_flags args HA) as (fl & EP & EV).
  assert (EP' : forall cmd : string, In cmd command_names -> parse_flags (bs cmd :: map arg_str args) [] = Ok fl).
  { intros cmd IC. rewrite parse_other; [exact EP|]. right. intros rest C. cbn [command_names In] in IC. destruct IC as [<-|[<-|[<-|[<-|[<-|[<-|[<-|[]]]]]]]]; discriminate C. }
  split; [|split; [|split]].
  - intros n v HV HI. assert (EI : exists so, int_flags fl = (Some n, so)).
    { unfold int_flags, int_flag. rewrite !EV, HV, (proj2 (proj1 (C50_integers v) n) HI). destruct (value SIZE args) as [s|]; [destruct (py_int s)|]; eexists; reflexivity. }
    destruct EI as (so & EI). unfold run, main.
    change (GetCommand (bs "promote")) with (Ok PROMOTE). change (GetCommand (bs "demote")) with (Ok DEMOTE). change (GetCommand (bs "revoke")) with (Ok REVOKE).
    rewrite !EP' by (cbn [command_names In]; tauto). cbn [pure pbind]. rewrite EI, EV. cbn [var pbind]. repeat split; reflexivity.
  - unfold run, main. change (GetCommand (bs "pubkey")) with (Ok PUBKEY). rewrite !EP' by (cbn [command_names In]; tauto). cbn [pure pbind]. destruct (int_flags fl). rewrite !EV. reflexivity.
  - intros p HP. unfold run, main. change (GetCommand (bs "create")) with (Ok CREATE). rewrite !EP' by (cbn [command_names In]; tauto). cbn [pure pbind]. destruct (int_flags fl). rewrite !EV, HP.
    destruct p as [[]|[]]; reflexivity.
  - intros st z HV HS HZ. unfold run, main. change (GetCommand (bs "addkey")) with (Ok ADDKEY). rewrite !EP' by (cbn [command_names In]; tauto). cbn [pure pbind].
    assert (EI : exists n, int_flags fl = (Some n, Some z)).
    { unfold int_flags, int_flag. rewrite !EV. assert (EZ : match value SIZE args with Some s => py_int s | None => Ok (-1) end = Ok z)
        by (destruct HZ as [[-> ->]|(v & -> & HI)]; [reflexivity | exact (proj2 (proj1 (C50_integers v) z) HI)]). rewrite EZ.
      destruct HV as [->|(v & n & -> & HI)]; [eexists; reflexivity|]. rewrite (proj2 (proj1 (C50_integers v) n) HI). eexists; reflexivity. }
    destruct EI as (n & EI).
    rewrite EI, !EV. replace (upper match value STATUS args with Some s => s | None => bs "ACTIVE" end) with (upper match value STATUS args with Some s => s | None => bs "active" end)
      by (destruct (value STATUS args); reflexivity). rewrite HS. split; [intros ->; reflexivity|]. intros c -> f. cbn [pure pbind]. rewrite !exec_bind.
    destruct (exec (read_location Crypter c) f) as [g [ks|e]]; reflexivity.
Qed.
Print Assumptions C50_runs.

(** REFUTED: a malformed flag does not stop the command, it is passed over: whatever the command
    line, it is run as if the flag had not been given. *)
Theorem C50_malformed_flag_refuted : forall gen a xs m ys ds es, malformed m -> main gen (a :: xs ++ m :: ys) ds es = main gen (a :: xs ++ ys) ds es.
Proof.
  intros gen a xs m ys ds es H. cbn [main]. replace (parse_flags (a :: xs ++ m :: ys) []) with (parse_flags (a :: xs ++ ys) []); [reflexivity|].
  change (a :: xs ++ m :: ys) with ((a :: xs) ++ m :: ys). change (a :: xs ++ ys) with ((a :: xs) ++ ys). generalize (a :: xs) as zs. intros zs. generalize (@nil (flag * str)).
  induction zs as [|b zs IH]; intros fl; cbn [app]; [symmetry; apply parse_other; left; exact H|].
  destruct (parse_cases b) as [E|(n & v & E)]; rewrite !E; [apply IH|]. destruct (GetFlag n); [apply IH | reflexivity].
Qed.
Print Assumptions C50_malformed_flag_refuted.

(** REFUTED: a size that is not an integer does not stop promote, demote or revoke, and neither a
    bad size nor a bad version stops create and pubkey ([C50_runs] with such [args]). *)
Theorem C50_bad_size_refuted : exists args v f g, Forall arg_ok args /\ value SIZE args = Some v /\ (forall z, ~ integer v z) /\
  exec (main no_genkey (bs "promote" :: map arg_str args) [] one_env) f = (g, Ok tt) /\ file g (bs "/hmac") meta_file <> file f (bs "/hmac") meta_file.
Proof.
  exists [Flag LOCATION (bs "/hmac"); Flag VERSION_FLAG (bs "1"); Flag SIZE (bs "big")], (bs "big"), test_disk. eexists. split.
  - repeat constructor; cbn [arg_ok]; unfold no_eq; vm_compute; intuition discriminate.
  - split; [reflexivity|]. split; [intros z H; apply C50_integers in H; vm_compute in H; discriminate|]. split; [vm_compute; reflexivity | vm_compute; discriminate].
Qed.
Print Assumptions C50_bad_size_refuted.

Example C50_case : malformed (bs "--version") /\ malformed (bs "--location=/a=b") /\ positional (bs "now") /\
  (let args := [Flag LOCATION (bs "/hmac"); Other (bs "--verbose"); Flag VERSION_FLAG (bs "2"); Flag VERSION_FLAG (bs "1")] in
   Forall arg_ok args /\ value VERSION_FLAG args = Some (bs "1") /\
   exists g, exec (main no_genkey (bs "promote" :: map arg_str args) [] one_env) test_disk = (g, Ok tt)) /\
  In (flag_arg (bs "force") (bs "1")) [bs "x"; bs "--force=1"] /\ ~ In (bs "force") (map bs flag_names) /\ ~ In (bs "remove") (map bs command_names).
Proof.
  assert (M : malformed (bs "--verbose")) by (exists (bs "verbose"); split; [reflexivity | left; unfold no_eq; vm_compute; intuition discriminate]).
  split; [exists (bs "version"); split; [reflexivity | left; unfold no_eq; vm_compute; intuition discriminate]|].
  split; [exists (bs "location=/a=b"); split; [reflexivity | right; exists (bs "location"), (bs "/a"), (bs "b"); reflexivity]|].
  split; [intros rest C; discriminate C|]. split.
  - split; [repeat constructor; cbn [arg_ok]; try (left; exact M); unfold no_eq; vm_compute; intuition discriminate|]. split; [reflexivity|]. eexists. vm_compute. reflexivity.
  - split; [right; left; reflexivity|]. split; vm_compute; intuition discriminate.
Qed.
