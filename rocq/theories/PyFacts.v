(** * PyFacts: lemmas about the Python operations of PyBase. *)
From Coq Require Import List ZArith NArith Bool Lia ZifyBool ZifyNat ZifyN.
From Coq.Init Require Import Byte.
From Coq.Strings Require Byte.
From Verif Require Import PyBase.
Import ListNotations.
Local Open Scope Z_scope.
Ltac Zify.zify_post_hook ::= Z.div_mod_to_equations.

(** ** Results *)
Lemma bind_Ok {A B} (r : res A) (k : A -> res B) b :
  bind r k = Ok b -> exists a, r = Ok a /\ k a = Ok b.
Proof. destruct r; simpl; intros H; [eauto | discriminate]. Qed.

Lemma bind_Raise {A B} (r : res A) (k : A -> res B) e :
  bind r k = Raise e -> r = Raise e \/ exists a, r = Ok a /\ k a = Raise e.
Proof. destruct r; simpl; intros H; [right; eauto | left; congruence]. Qed.

Lemma bind_assoc {A B C} (r : res A) (k : A -> res B) (k' : B -> res C) :
  bind (bind r k) k' = bind r (fun a => bind (k a) k').
Proof. destruct r; reflexivity. Qed.

Lemma Ok_inj {A} (a b : A) : Ok a = Ok b -> a = b.
Proof. congruence. Qed.
Lemma Raise_inj {A} e e' : @Raise A e = Raise e' -> e = e'.
Proof. congruence. Qed.
Lemma pair_inj {A B} (a a' : A) (b b' : B) : (a, b) = (a', b') -> a = a' /\ b = b'.
Proof. intros H; split; congruence. Qed.
Lemma Some_inj {A} (a b : A) : Some a = Some b -> a = b.
Proof. congruence. Qed.

(** Split every [bind ... = Ok _] hypothesis. *)
Ltac inv_bind :=
  repeat match goal with
  | H : bind _ _ = Ok _ |- _ =>
      let a := fresh "a" in let E := fresh "E" in
      apply bind_Ok in H; destruct H as [a [E H]]
  | H : Ok _ = Ok _ |- _ => apply Ok_inj in H; try subst
  | H : (_, _) = (_, _) |- _ => apply pair_inj in H; destruct H; try subst
  | H : Raise _ = Ok _ |- _ => discriminate H
  | H : Ok _ = Raise _ |- _ => discriminate H
  | H : Raise _ = Raise _ |- _ => apply Raise_inj in H; try subst
  end.

Lemma mapM_Ok_map {A B} (f : A -> res B) (g : A -> B) l :
  (forall a, In a l -> f a = Ok (g a)) -> mapM f l = Ok (map g l).
Proof.
  induction l as [|a l IH]; intros H; [reflexivity|].
  cbn [mapM map]. rewrite (H a (or_introl eq_refl)). cbn [bind].
  rewrite IH by (intros; apply H; right; assumption). reflexivity.
Qed.

Lemma mapM_Ok_Forall2 {A B} (f : A -> res B) l l' :
  mapM f l = Ok l' <-> Forall2 (fun a b => f a = Ok b) l l'.
Proof.
  revert l'. induction l as [|a l IH]; intros l'; cbn [mapM]; split; intros H.
  - inv_bind. constructor.
  - inversion H; reflexivity.
  - inv_bind. constructor; [assumption|]. apply IH; assumption.
  - inversion H as [|? b ? l'' Hb Hl]; subst. rewrite Hb. cbn [bind].
    apply IH in Hl. rewrite Hl. reflexivity.
Qed.

Lemma mapM_app {A B} (f : A -> res B) l1 l2 :
  mapM f (l1 ++ l2) = bind (mapM f l1) (fun a => bind (mapM f l2) (fun b => Ok (a ++ b))).
Proof.
  induction l1 as [|a l1 IH]; cbn [mapM app bind].
  - destruct (mapM f l2); reflexivity.
  - destruct (f a); cbn [bind]; [|reflexivity]. rewrite IH.
    destruct (mapM f l1); cbn [bind]; [|reflexivity].
    destruct (mapM f l2); reflexivity.
Qed.

Lemma mapM_length {A B} (f : A -> res B) l l' : mapM f l = Ok l' -> length l' = length l.
Proof. intros H. apply mapM_Ok_Forall2 in H. induction H; simpl; congruence. Qed.

(** ** Bytes *)
Lemma ord_range b : 0 <= ord b < 256.
Proof. unfold ord. pose proof (Byte.to_N_bounded b). lia. Qed.

Lemma chr_ord b : chr (ord b) = b.
Proof.
  unfold chr. rewrite Z.mod_small by apply ord_range.
  unfold ord. rewrite N2Z.id, Byte.of_to_N. reflexivity.
Qed.

Lemma ord_chr z : ord (chr z) = z mod 256.
Proof.
  unfold chr. assert (Hr : 0 <= z mod 256 < 256) by (apply Z.mod_pos_bound; lia).
  destruct (Byte.of_N (Z.to_N (z mod 256))) as [b|] eqn:E.
  - apply Byte.to_of_N in E. unfold ord. rewrite E. rewrite Z2N.id; lia.
  - apply Byte.of_N_None_iff in E. lia.
Qed.

Lemma ord_chr_small z : 0 <= z < 256 -> ord (chr z) = z.
Proof. intros H. rewrite ord_chr. apply Z.mod_small; lia. Qed.

Lemma ord_inj a b : ord a = ord b -> a = b.
Proof. intros H. rewrite <- (chr_ord a), <- (chr_ord b), H. reflexivity. Qed.

Lemma chr_mod z : chr (z mod 256) = chr z.
Proof. apply ord_inj. rewrite !ord_chr. apply Z.mod_mod; lia. Qed.

Lemma chr_inj a b : 0 <= a < 256 -> 0 <= b < 256 -> chr a = chr b -> a = b.
Proof. intros Ha Hb H. apply (f_equal ord) in H. rewrite !ord_chr_small in H; assumption. Qed.

Lemma beqb_eq a b : beqb a b = true <-> a = b.
Proof.
  split; intros H.
  - apply Byte.byte_dec_bl. exact H.
  - apply Byte.byte_dec_lb. exact H.
Qed.

Lemma beqb_refl a : beqb a a = true.
Proof. apply beqb_eq; reflexivity. Qed.

Lemma beqb_neq a b : beqb a b = false <-> a <> b.
Proof.
  split; intros H.
  - intros E. apply beqb_eq in E. congruence.
  - destruct (beqb a b) eqn:E; [apply beqb_eq in E; contradiction | reflexivity].
Qed.

Lemma beqb_ord a b : beqb a b = (ord a =? ord b).
Proof.
  destruct (Z.eqb_spec (ord a) (ord b)) as [E|E].
  - apply ord_inj in E; subst; apply beqb_refl.
  - apply beqb_neq. congruence.
Qed.

Lemma byte_eq_dec (a b : byte) : {a = b} + {a <> b}.
Proof. destruct (beqb a b) eqn:E; [left; apply beqb_eq | right; apply beqb_neq]; assumption. Qed.

(** ** Byte xor *)
Lemma lxor_range a b : 0 <= a < 256 -> 0 <= b < 256 -> 0 <= Z.lxor a b < 256.
Proof.
  intros Ha Hb.
  assert (0 <= Z.lxor a b) by (apply Z.lxor_nonneg; lia).
  split; [assumption|].
  destruct (Z.eq_dec (Z.lxor a b) 0) as [E|E]; [lia|].
  assert (Z.log2 (Z.lxor a b) < 8).
  { pose proof (Z.log2_lxor a b ltac:(lia) ltac:(lia)) as L.
    assert (Z.log2 a < 8). { destruct (Z.eq_dec a 0); [subst; reflexivity|]. apply Z.log2_lt_pow2; lia. }
    assert (Z.log2 b < 8). { destruct (Z.eq_dec b 0); [subst; reflexivity|]. apply Z.log2_lt_pow2; lia. }
    lia. }
  change 256 with (2 ^ 8). apply Z.log2_lt_pow2; lia.
Qed.

Lemma ord_bxor a b : ord (bxor a b) = Z.lxor (ord a) (ord b).
Proof. unfold bxor. apply ord_chr_small, lxor_range; apply ord_range. Qed.

Lemma bxor_comm a b : bxor a b = bxor b a.
Proof. unfold bxor. rewrite Z.lxor_comm. reflexivity. Qed.

Lemma bxor_assoc a b c : bxor (bxor a b) c = bxor a (bxor b c).
Proof. apply ord_inj. rewrite !ord_bxor. apply Z.lxor_assoc. Qed.

Lemma bxor_nilpotent a : bxor a a = x00.
Proof. apply ord_inj. rewrite ord_bxor, Z.lxor_nilpotent. reflexivity. Qed.

Lemma bxor_0_r a : bxor a x00 = a.
Proof. apply ord_inj. rewrite ord_bxor. apply Z.lxor_0_r. Qed.

Lemma bxor_0_l a : bxor x00 a = a.
Proof. rewrite bxor_comm. apply bxor_0_r. Qed.

Lemma bxor_cancel a b : bxor (bxor a b) b = a.
Proof. rewrite bxor_assoc, bxor_nilpotent. apply bxor_0_r. Qed.

Lemma bxor_eq_0 a b : bxor a b = x00 <-> a = b.
Proof.
  split; intros H; [|subst; apply bxor_nilpotent].
  rewrite <- (bxor_cancel a b), H. apply bxor_0_l.
Qed.

(** ** Lengths *)
Lemma len_nonneg {A} (l : list A) : 0 <= len l.
Proof. unfold len. lia. Qed.
Lemma len_nil {A} : len (@nil A) = 0.
Proof. reflexivity. Qed.
Lemma len_cons {A} (a : A) l : len (a :: l) = 1 + len l.
Proof. unfold len. cbn [length]. lia. Qed.
Lemma len_app {A} (l1 l2 : list A) : len (l1 ++ l2) = len l1 + len l2.
Proof. unfold len. rewrite app_length. lia. Qed.
Lemma len_rep n c : 0 <= n -> len (rep n c) = n.
Proof. intros H. unfold len, rep. rewrite repeat_length. lia. Qed.
Lemma len_rep_neg n c : n <= 0 -> rep n c = [].
Proof. intros H. unfold rep. replace (Z.to_nat n) with O by lia. reflexivity. Qed.
Lemma len_map {A B} (f : A -> B) l : len (map f l) = len l.
Proof. unfold len. rewrite map_length. reflexivity. Qed.
Lemma len_rev {A} (l : list A) : len (rev l) = len l.
Proof. unfold len. rewrite rev_length. reflexivity. Qed.
Lemma len_0_nil {A} (l : list A) : len l = 0 -> l = [].
Proof. unfold len. destruct l; simpl; [reflexivity | lia]. Qed.
Lemma len_length {A} (l : list A) : Z.to_nat (len l) = length l.
Proof. unfold len. lia. Qed.
Lemma len_firstn {A} n (l : list A) : (n <= length l)%nat -> len (firstn n l) = Z.of_nat n.
Proof. intros H. unfold len. rewrite firstn_length. lia. Qed.
Lemma len_skipn {A} n (l : list A) : (n <= length l)%nat -> len (skipn n l) = len l - Z.of_nat n.
Proof. intros H. unfold len. rewrite skipn_length. lia. Qed.

Ltac len_simp := repeat rewrite ?len_app, ?len_cons, ?len_nil, ?len_map, ?len_rev.

(** ** Slices *)
Lemma slice_nonneg {A} (l : list A) a b :
  0 <= a -> 0 <= b ->
  slice l a b = firstn (Z.to_nat (b - a)) (skipn (Z.to_nat a) l).
Proof.
  intros Ha Hb. unfold slice, clamp.
  destruct (Z.ltb_spec a 0); [lia|]. destruct (Z.ltb_spec b 0); [lia|].
  destruct (Z.le_gt_cases (len l) a) as [L|L].
  - rewrite (Z.min_l (len l) a) by lia.
    rewrite !skipn_all2 by (unfold len in *; lia). rewrite !firstn_nil. reflexivity.
  - rewrite (Z.min_r (len l) a) by lia.
    destruct (Z.le_gt_cases b (len l)) as [M|M].
    + rewrite (Z.min_r (len l) b) by lia. reflexivity.
    + rewrite (Z.min_l (len l) b) by lia.
      rewrite !firstn_all2; [reflexivity | |]; rewrite skipn_length; unfold len in *; lia.
Qed.

Lemma slice_to_firstn {A} (l : list A) b : 0 <= b -> slice_to l b = firstn (Z.to_nat b) l.
Proof. intros H. unfold slice_to. rewrite slice_nonneg by lia. rewrite Z.sub_0_r. reflexivity. Qed.

Lemma slice_from_skipn {A} (l : list A) a : 0 <= a -> slice_from l a = skipn (Z.to_nat a) l.
Proof.
  intros H. unfold slice_from. rewrite slice_nonneg by (pose proof (len_nonneg l); lia).
  apply firstn_all2. rewrite skipn_length. unfold len. lia.
Qed.

Lemma slice_to_neg {A} (l : list A) k :
  0 < k -> slice_to l (- k) = firstn (length l - Z.to_nat k) l.
Proof.
  intros H. unfold slice_to, slice, clamp. pose proof (len_nonneg l).
  change (0 <? 0) with false. cbv iota. rewrite (Z.min_r (len l) 0) by lia.
  destruct (Z.ltb_spec (- k) 0); [|lia]. cbn [Z.to_nat skipn].
  f_equal. unfold len. lia.
Qed.

Lemma slice_from_neg {A} (l : list A) k :
  0 < k -> slice_from l (- k) = skipn (length l - Z.to_nat k) l.
Proof.
  intros H. unfold slice_from, slice, clamp. pose proof (len_nonneg l).
  destruct (Z.ltb_spec (- k) 0); [|lia].
  destruct (Z.ltb_spec (len l) 0); [lia|]. rewrite Z.min_id.
  replace (Z.to_nat (Z.max 0 (len l + - k))) with (length l - Z.to_nat k)%nat by (unfold len; lia).
  apply firstn_all2. rewrite skipn_length. unfold len. lia.
Qed.

Lemma firstn_app_exact {A} (l1 l2 : list A) n : n = length l1 -> firstn n (l1 ++ l2) = l1.
Proof. intros ->. rewrite firstn_app, firstn_all, Nat.sub_diag. cbn [firstn]. apply app_nil_r. Qed.

Lemma skipn_app_exact {A} (l1 l2 : list A) n : n = length l1 -> skipn n (l1 ++ l2) = l2.
Proof. intros ->. rewrite skipn_app, skipn_all, Nat.sub_diag. reflexivity. Qed.

Lemma slice_to_app {A} (l1 l2 : list A) n : n = len l1 -> slice_to (l1 ++ l2) n = l1.
Proof.
  intros ->. rewrite slice_to_firstn by apply len_nonneg.
  apply firstn_app_exact, len_length.
Qed.

Lemma slice_from_app {A} (l1 l2 : list A) n : n = len l1 -> slice_from (l1 ++ l2) n = l2.
Proof.
  intros ->. rewrite slice_from_skipn by apply len_nonneg.
  apply skipn_app_exact, len_length.
Qed.

Lemma slice_to_neg_app {A} (l1 l2 : list A) k :
  k = len l2 -> 0 < k -> slice_to (l1 ++ l2) (- k) = l1.
Proof.
  intros -> H. rewrite slice_to_neg by assumption.
  apply firstn_app_exact. rewrite app_length. unfold len in *; lia.
Qed.

Lemma slice_from_neg_app {A} (l1 l2 : list A) k :
  k = len l2 -> 0 < k -> slice_from (l1 ++ l2) (- k) = l2.
Proof.
  intros -> H. rewrite slice_from_neg by assumption.
  apply skipn_app_exact. rewrite app_length. unfold len in *; lia.
Qed.

Lemma slice_mid_app {A} (l1 l2 l3 : list A) a b :
  a = len l1 -> b = len l1 + len l2 -> slice (l1 ++ l2 ++ l3) a b = l2.
Proof.
  intros -> ->. pose proof (len_nonneg l1). pose proof (len_nonneg l2).
  rewrite slice_nonneg by lia. rewrite skipn_app_exact by apply len_length.
  apply firstn_app_exact. unfold len; lia.
Qed.

Lemma slice_to_all {A} (l : list A) n : len l <= n -> slice_to l n = l.
Proof.
  intros H. pose proof (len_nonneg l). rewrite slice_to_firstn by lia.
  apply firstn_all2. unfold len in *; lia.
Qed.

Lemma slice_from_all {A} (l : list A) n : len l <= n -> slice_from l n = [].
Proof.
  intros H. pose proof (len_nonneg l). rewrite slice_from_skipn by lia.
  apply skipn_all2. unfold len in *; lia.
Qed.

Lemma slice_to_from {A} (l : list A) n : slice_to l n ++ slice_from l n = l.
Proof.
  destruct (Z.lt_ge_cases n 0) as [H|H].
  - replace n with (- (- n)) by lia. rewrite slice_to_neg, slice_from_neg by lia.
    apply firstn_skipn.
  - rewrite slice_to_firstn, slice_from_skipn by lia. apply firstn_skipn.
Qed.

Lemma slice_from_0 {A} (l : list A) : slice_from l 0 = l.
Proof. rewrite slice_from_skipn by lia. reflexivity. Qed.

Lemma len_slice_to {A} (l : list A) n : 0 <= n <= len l -> len (slice_to l n) = n.
Proof. intros H. rewrite slice_to_firstn by lia. rewrite len_firstn; unfold len in *; lia. Qed.

Lemma len_slice_from {A} (l : list A) n : 0 <= n <= len l -> len (slice_from l n) = len l - n.
Proof. intros H. rewrite slice_from_skipn by lia. rewrite len_skipn; unfold len in *; lia. Qed.

(** Splitting a list at a position. *)
Lemma split_at {A} (l : list A) n : 0 <= n <= len l ->
  exists l1 l2, l = l1 ++ l2 /\ len l1 = n.
Proof.
  intros H. exists (slice_to l n), (slice_from l n). rewrite slice_to_from.
  split; [reflexivity | apply len_slice_to; assumption].
Qed.

Lemma app_inv_len {A} (a b c d : list A) : a ++ b = c ++ d -> len a = len c -> a = c /\ b = d.
Proof.
  intros H L. unfold len in L. assert (length a = length c) by lia. clear L.
  revert c H H0. induction a as [|x a IH]; intros [|y c] H E; simpl in *; try lia; try tauto.
  injection H as -> H. destruct (IH c H ltac:(lia)) as [-> ->]. tauto.
Qed.

Lemma app_inv_len_r {A} (a b c d : list A) : a ++ b = c ++ d -> len b = len d -> a = c /\ b = d.
Proof.
  intros H L. apply app_inv_len; [assumption|].
  apply (f_equal len) in H. rewrite !len_app in H. lia.
Qed.

(** ** String comparison *)
Lemma str_eqb_eq s t : str_eqb s t = true <-> s = t.
Proof.
  revert t. induction s as [|a s IH]; intros [|b t]; cbn [str_eqb]; split; intros H;
    try reflexivity; try discriminate.
  - apply andb_true_iff in H as [H1 H2]. apply beqb_eq in H1. apply IH in H2. congruence.
  - injection H as -> ->. rewrite beqb_refl. apply IH. reflexivity.
Qed.

Lemma str_eqb_refl s : str_eqb s s = true.
Proof. apply str_eqb_eq; reflexivity. Qed.

Lemma str_eqb_neq s t : str_eqb s t = false <-> s <> t.
Proof.
  split; intros H.
  - intros E. apply str_eqb_eq in E. congruence.
  - destruct (str_eqb s t) eqn:E; [apply str_eqb_eq in E; contradiction | reflexivity].
Qed.

Lemma str_eq_dec (a b : str) : {a = b} + {a <> b}.
Proof. destruct (str_eqb a b) eqn:E; [left; apply str_eqb_eq | right; apply str_eqb_neq]; assumption. Qed.

Lemma text_eqb_eq s t : text_eqb s t = true <-> s = t.
Proof.
  revert t. induction s as [|a s IH]; intros [|b t]; cbn [text_eqb]; split; intros H;
    try reflexivity; try discriminate.
  - apply andb_true_iff in H as [H1 H2]. apply N.eqb_eq in H1. apply IH in H2. congruence.
  - injection H as -> ->. rewrite N.eqb_refl. apply IH. reflexivity.
Qed.

Lemma text_eqb_refl s : text_eqb s s = true.
Proof. apply text_eqb_eq; reflexivity. Qed.

Lemma text_eqb_neq s t : text_eqb s t = false <-> s <> t.
Proof.
  split; intros H.
  - intros E. apply text_eqb_eq in E. congruence.
  - destruct (text_eqb s t) eqn:E; [apply text_eqb_eq in E; contradiction | reflexivity].
Qed.

(** ** lstrip *)
Lemma lstrip_rep c n s : lstrip c (rep n c ++ s) = lstrip c s.
Proof.
  unfold rep. induction (Z.to_nat n) as [|k IH]; cbn [repeat app lstrip]; [reflexivity|].
  rewrite beqb_refl. exact IH.
Qed.

Lemma lstrip_decomp c s : exists n, s = repeat c n ++ lstrip c s.
Proof.
  induction s as [|a s [n IH]]; [exists O; reflexivity|]. cbn [lstrip].
  destruct (beqb a c) eqn:E.
  - apply beqb_eq in E as ->. exists (S n). cbn [repeat app]. congruence.
  - exists O. reflexivity.
Qed.

Lemma lstrip_head c s : match lstrip c s with [] => True | a :: _ => a <> c end.
Proof.
  induction s as [|a s IH]; cbn [lstrip]; [exact I|].
  destruct (beqb a c) eqn:E; [exact IH | apply beqb_neq; exact E].
Qed.

Lemma lstrip_noop c a s : a <> c -> lstrip c (a :: s) = a :: s.
Proof. intros H. cbn [lstrip]. apply beqb_neq in H. rewrite H. reflexivity. Qed.

(** ** ASCII text *)
Lemma str_of_text_of_str s :
  Forall (fun b => ord b < 128) s -> str_of_text (text_of_str s) = Ok s.
Proof.
  intros H. unfold str_of_text, text_of_str.
  induction H as [|b s Hb _ IH]; [reflexivity|]. cbn [map mapM].
  unfold ord in Hb. destruct (N.ltb_spec (Byte.to_N b) 128); [|lia].
  rewrite Byte.of_to_N. cbn [bind]. rewrite IH. reflexivity.
Qed.

Lemma text_of_str_inj s t : text_of_str s = text_of_str t -> s = t.
Proof.
  revert t. induction s as [|a s IH]; intros [|b t] H; try discriminate; [reflexivity|].
  cbn in H. injection H as H1 H2. f_equal; [|apply IH; assumption].
  apply ord_inj. unfold ord. congruence.
Qed.

Lemma length_map_seq (r : tape) n : length (map r (seq 0 n)) = n.
Proof. rewrite map_length, seq_length. reflexivity. Qed.

Global Arguments ord : simpl never.
Global Arguments chr : simpl never.
Global Arguments bxor : simpl never.
