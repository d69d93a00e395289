(** * Props_B64: further theorems for C04 (exactly which texts Base64WSDecode accepts, and as what). *)
From Coq Require Import Strings.String.
From Coq Require Import List ZArith NArith Bool Lia ZifyBool ZifyNat ZifyN.
From Coq.Init Require Import Byte.
From Verif Require Import PyBase PyFacts UtilFacts2 Base64 Base64Facts Util UtilFacts Props_Util.
Import ListNotations.
Local Open Scope Z_scope.

(** ** Specification *)

(** The value of a letter: its place in the URL-safe alphabet; '+' and '/' are read as '-' and '_'. *)
Definition letter (c : byte) (v : nat) : Prop :=
  nth_error url_alphabet v = Some c \/ (c = "+"%byte /\ v = 62%nat) \/ (c = "/"%byte /\ v = 63%nat).

(** The next character that is a letter or a '=' is a '='. *)
Inductive next_is_pad : str -> Prop :=
| IsPad s : next_is_pad ("="%byte :: s)
| AfterForeign c s : (forall v, ~ letter c v) -> c <> "="%byte -> next_is_pad s -> next_is_pad (c :: s).

(** Reading a text from position [q] in a group of four: the letters read, and whether a padding
    ended it (the rest is not looked at).  A '=' is passed over at the first two positions of a group,
    and at the third unless another one follows it; characters that are not letters or '=' are
    passed over everywhere. *)
Inductive reads : nat -> str -> list Z -> bool -> Prop :=
| AtEnd q : reads q [] [] false
| Letter q c v s vs b : letter c v -> reads (Nat.modulo (q + 1) 4) s vs b -> reads q (c :: s) (Z.of_nat v :: vs) b
| Foreign q c s vs b : (forall v, ~ letter c v) -> c <> "="%byte -> reads q s vs b -> reads q (c :: s) vs b
| EarlyPad q s vs b : (q < 2)%nat -> reads q s vs b -> reads q ("="%byte :: s) vs b
| LonePad s vs b : ~ next_is_pad s -> reads 2 s vs b -> reads 2 ("="%byte :: s) vs b
| TwoPads s : next_is_pad s -> reads 2 ("="%byte :: s) [] true
| LastPad s : reads 3 ("="%byte :: s) [] true.

(** The number the letters write, to the base of 64. *)
Fixpoint number64 (vs : list Z) : Z := match vs with [] => 0 | v :: vs' => v * 64 ^ len vs' + number64 vs' end.

(** The text with the padding that Base64WSDecode adds. *)
Definition padded (s : str) : str :=
  s ++ (if len s mod 4 =? 2 then bs "==" else if len s mod 4 =? 3 then bs "=" else []).

(** ** Proofs *)

Definition letterb (c : byte) (v : nat) : bool :=
  match nth_error url_alphabet v with Some d => beqb d c | None => false end || (beqb c "+"%byte && Nat.eqb v 62) || (beqb c "/"%byte && Nat.eqb v 63).
Lemma letterb_iff c v : letterb c v = true <-> letter c v.
Proof.
  unfold letterb, letter. rewrite !orb_true_iff, !andb_true_iff, !Nat.eqb_eq. split.
  - intros [[H|[H ->]]|[H ->]]; [left|right; left|right; right]; try (apply beqb_eq in H; subst; tauto). destruct (nth_error url_alphabet v); [apply beqb_eq in H; subst; reflexivity | discriminate].
  - intros [H|[[-> ->]|[-> ->]]]; [left; left; rewrite H; apply beqb_refl | tauto | tauto].
Qed.
Lemma value_letter c : c <> "="%byte -> match b64_val (of_urlsafe c) with Some z => exists v, z = Z.of_nat v /\ (v < 64)%nat /\ letter c v | None => forall v, ~ letter c v end.
Proof.
  intros HN. pose (P := fun c => beqb c "="%byte || match b64_val (of_urlsafe c) with Some z => (0 <=? z) && (z <? 64) && letterb c (Z.to_nat z) | None => negb (existsb (letterb c) (seq 0 64)) end).
  assert (E : P c = true) by (apply forall_bytes; vm_compute; reflexivity). unfold P in E. destruct (beqb c "="%byte) eqn:EQ; [apply beqb_eq in EQ; contradiction|]. cbn [orb] in E.
  destruct (b64_val (of_urlsafe c)) as [z|].
  - apply andb_true_iff in E as [E1 E2]. exists (Z.to_nat z). split; [lia|]. split; [lia|]. apply letterb_iff, E2.
  - intros v H. apply negb_true_iff in E. rewrite <- not_true_iff_false in E. apply E. apply existsb_exists. exists v. split; [|apply letterb_iff, H]. apply in_seq.
    destruct H as [H|[[_ ->]|[_ ->]]]; [|lia|lia]. assert (B : (v < List.length url_alphabet)%nat) by (apply nth_error_Some; congruence). change (List.length url_alphabet) with 64%nat in B. lia.
Qed.
Lemma letter_unique c v v' : letter c v -> letter c v' -> v = v'.
Proof.
  intros H H'. pose (P := fun c => forallb (fun v => forallb (fun v' => negb (letterb c v && letterb c v') || Nat.eqb v v') (seq 0 64)) (seq 0 64)).
  assert (E : P c = true) by (apply forall_bytes; vm_compute; reflexivity). unfold P in E.
  assert (B : forall v, letter c v -> In v (seq 0 64)).
  { intros w [G|[[_ ->]|[_ ->]]]; apply in_seq; [|lia|lia]. assert (X : (w < List.length url_alphabet)%nat) by (apply nth_error_Some; congruence). change (List.length url_alphabet) with 64%nat in X. lia. }
  rewrite forallb_forall in E. specialize (E v (B v H)). rewrite forallb_forall in E. specialize (E v' (B v' H')). apply letterb_iff in H, H'. rewrite H, H' in E. cbn in E. apply Nat.eqb_eq, E.
Qed.
Lemma pad_no_letter v : ~ letter "="%byte v.
Proof. intros H. apply letterb_iff in H. assert (E : existsb (letterb "="%byte) (seq 0 64) = false) by (vm_compute; reflexivity). rewrite <- not_true_iff_false in E. apply E, existsb_exists. exists v. split; [|exact H].
  apply in_seq. apply letterb_iff in H. destruct H as [H|[[_ ->]|[_ ->]]]; [|lia|lia]. assert (X : (v < List.length url_alphabet)%nat) by (apply nth_error_Some; congruence). change (List.length url_alphabet) with 64%nat in X. lia. Qed.

Lemma of_urlsafe_eq c : of_urlsafe c = "="%byte -> c = "="%byte.
Proof. intros H. pose proof (of_urlsafe_pad c) as P. rewrite H, beqb_refl in P. symmetry in P. apply beqb_eq, P. Qed.

(** The pad that follows, as the code looks for it. *)
Lemma next_pad s : match find_valid (map of_urlsafe s) 0 with Some d => beqb d "="%byte | None => false end = true <-> next_is_pad s.
Proof.
  induction s as [|c s IH]; cbn [map find_valid]; [split; [discriminate | intros H; inversion H]|].
  destruct (beqb c "="%byte) eqn:EC.
  - apply beqb_eq in EC as ->. change (of_urlsafe "="%byte) with "="%byte. change (b64_val "="%byte) with (Some 0). cbn iota. split; [intros _; constructor | reflexivity].
  - apply beqb_neq in EC. pose proof (value_letter c EC) as V. destruct (b64_val (of_urlsafe c)) as [z|].
    + split.
      * intros H. apply beqb_eq in H. apply of_urlsafe_eq in H. contradiction.
      * intros H. inversion H as [|? ? HF]; subst; [contradiction|]. destruct V as (v & _ & _ & L). exfalso. exact (HF v L).
    + rewrite IH. split; [intros H; constructor; assumption | intros H; inversion H; subst; [contradiction | assumption]].
Qed.

Lemma reads_unique q s vs b : reads q s vs b -> forall vs' b', reads q s vs' b' -> vs' = vs /\ b' = b.
Proof.
  induction 1 as [q|q c v s vs b L R IH|q c s vs b F N R IH|q s vs b Q R IH|s vs b P R IH|s P|s]; intros vs' b' H.
  - inversion H; subst. split; reflexivity.
  - inversion H as [|? ? v2 ? ? ? L2 R2|? ? ? ? ? F2 N2 R2|? ? ? ? Q2 R2|? ? ? P2 R2|? P2|]; subst; try (exfalso; eapply pad_no_letter; eassumption).
    + destruct (IH _ _ R2) as [-> ->]. rewrite (letter_unique c v2 v L2 L). split; reflexivity.
    + exfalso. exact (F2 v L).
  - inversion H as [|? ? v2 ? ? ? L2 R2|? ? ? ? ? F2 N2 R2|? ? ? ? Q2 R2|? ? ? P2 R2|? P2|]; subst; try contradiction.
    + exfalso. exact (F v2 L2).
    + apply IH, R2.
  - inversion H as [|? ? v2 ? ? ? L2 R2|? ? ? ? ? F2 N2 R2|? ? ? ? Q2 R2|? ? ? P2 R2|? P2|]; subst; try contradiction; try lia.
    + exfalso. exact (pad_no_letter _ L2).
    + apply IH, R2.
  - inversion H as [|? ? v2 ? ? ? L2 R2|? ? ? ? ? F2 N2 R2|? ? ? ? Q2 R2|? ? ? P2 R2|? P2|]; subst; try contradiction; try lia.
    + exfalso. exact (pad_no_letter _ L2).
    + apply IH, R2.
  - inversion H as [|? ? v2 ? ? ? L2 R2|? ? ? ? ? F2 N2 R2|? ? ? ? Q2 R2|? ? ? P2 R2|? P2|]; subst; try contradiction; try lia.
    + exfalso. exact (pad_no_letter _ L2).
    + split; reflexivity.
  - inversion H as [|? ? v2 ? ? ? L2 R2|? ? ? ? ? F2 N2 R2|? ? ? ? Q2 R2|? ? ? P2 R2|? P2|]; subst; try contradiction; try lia.
    + exfalso. exact (pad_no_letter _ L2).
    + split; reflexivity.
Qed.

(** The bits left over at a position of the group. *)
Definition left_bits (q : nat) : Z := match q with 0%nat => 0 | 1%nat => 6 | 2%nat => 4 | _ => 2 end.

(** What the letters [vs] mean after [lc] at position [q]: bytes, and a rest of less than a byte. *)
Definition means (q : nat) (lc : Z) (vs : list Z) (d : str) : Prop :=
  exists r rest, 0 <= r < 8 /\ left_bits q + 6 * len vs = 8 * len d + r /\ 0 <= rest < 2 ^ r /\
    lc * 64 ^ len vs + number64 vs = be_val d * 2 ^ r + rest.

Lemma means_step q lc v vs d : (q < 4)%nat -> 0 <= lc < 2 ^ left_bits q -> 0 <= v < 64 ->
  let lc' := lc * 64 + v in let lb' := left_bits q + 6 in
  (8 <= lb' -> means (Nat.modulo (q + 1) 4) (lc' mod 2 ^ (lb' - 8)) vs d -> means q lc (v :: vs) (chr (lc' / 2 ^ (lb' - 8)) :: d)) /\
  (lb' < 8 -> means (Nat.modulo (q + 1) 4) lc' vs d -> means q lc (v :: vs) d).
Proof.
  intros HQ HL HV lc' lb'. pose proof (len_nonneg vs) as N. pose proof (len_nonneg d) as ND. split.
  - intros H8 (r & rest & Hr & HLen & Hrest & E). exists r, rest.
    assert (LB : left_bits (Nat.modulo (q + 1) 4) = lb' - 8) by (clear - HQ H8; unfold lb' in *; destruct q as [|[|[|[|]]]]; cbn in *; lia).
    assert (B : 0 <= lb' - 8) by lia. set (k := lb' - 8) in *.
    assert (P : 0 < 2 ^ k) by (apply Z.pow_pos_nonneg; lia).
    assert (HB : 0 <= lc' / 2 ^ k < 256).
    { split; [apply Z.div_pos; unfold lc'; lia|]. apply Z.div_lt_upper_bound; [exact P|]. replace (2 ^ k * 256) with (2 ^ (left_bits q) * 64). 2:{ replace 256 with (2 ^ 8) by reflexivity. replace 64 with (2 ^ 6) by reflexivity. rewrite <- !Z.pow_add_r by (unfold k, lb' in *; destruct q as [|[|[|]]]; cbn in *; lia). f_equal. unfold k, lb'. lia. } unfold lc'. lia. }
    split; [exact Hr|]. split; [rewrite !len_cons; unfold k, lb' in *; lia|]. split; [exact Hrest|].
    rewrite len_cons. cbn [number64]. rewrite be_val_cons. rewrite ord_chr_small by exact HB. rewrite Z.mul_add_distr_r. rewrite <- Z.add_assoc. rewrite <- E.
    replace (lc' / 2 ^ k * 256 ^ len d * 2 ^ r) with (lc' / 2 ^ k * 2 ^ k * 64 ^ len vs).
    + replace (64 ^ (1 + len vs)) with (64 * 64 ^ len vs) by (rewrite Z.pow_add_r by lia; reflexivity). pose proof (Z.div_mod lc' (2 ^ k) ltac:(lia)) as DM. unfold lc' in DM at 1.
      replace (lc * (64 * 64 ^ len vs) + (v * 64 ^ len vs + number64 vs)) with ((lc * 64 + v) * 64 ^ len vs + number64 vs) by ring. rewrite DM. ring.
    + rewrite <- !Z.mul_assoc. f_equal. replace 256 with (2 ^ 8) by reflexivity. replace 64 with (2 ^ 6) by reflexivity. rewrite <- !Z.pow_mul_r, <- !Z.pow_add_r by lia. f_equal. lia.
  - intros H8 (r & rest & Hr & HLen & Hrest & E). exists r, rest. assert (LB : left_bits (Nat.modulo (q + 1) 4) = left_bits q + 6) by (clear - HQ H8; unfold lb' in H8; destruct q as [|[|[|[|]]]]; cbn in *; lia). rewrite LB in HLen. split; [exact Hr|]. split; [rewrite len_cons; lia|]. split; [exact Hrest|].
    rewrite <- E. rewrite len_cons. cbn [number64]. rewrite Z.pow_add_r by lia. unfold lc'. ring.
Qed.

Lemma len_mod_4 q n : (q < 4)%nat -> 0 <= n -> ((left_bits q + 6 * n) mod 8 = 0 <-> (Z.of_nat q + n) mod 4 = 0).
Proof. intros HQ HN. destruct q as [|[|[|[|]]]]; cbn [left_bits]; lia. Qed.

Lemma loop_reads s : forall q lc, (q < 4)%nat -> 0 <= lc < 2 ^ left_bits q ->
  exists vs b, reads q s vs b /\
    if b || ((Z.of_nat q + len vs) mod 4 =? 0) then exists d, a2b_loop (map of_urlsafe s) (Z.of_nat q) (left_bits q) lc = Ok d /\ means q lc vs d
    else a2b_loop (map of_urlsafe s) (Z.of_nat q) (left_bits q) lc = Raise TypeError.
Proof.
  induction s as [|c s IH]; intros q lc HQ HL.
  - exists [], false. split; [constructor|]. cbn [orb map a2b_loop]. change (len (@nil Z)) with 0. destruct q as [|[|[|[|]]]]; try lia; cbn; try reflexivity.
    exists []. split; [reflexivity|]. exists 0, 0. cbn in HL. split; [lia|]. split; [reflexivity|]. split; [lia|]. cbn. cbn in HL. lia.
  - cbn [map a2b_loop]. rewrite of_urlsafe_pad. destruct (beqb c "="%byte) eqn:EC.
    + apply beqb_eq in EC as ->. assert (FV : find_valid (of_urlsafe "="%byte :: map of_urlsafe s) 1 = find_valid (map of_urlsafe s) 0) by reflexivity. rewrite FV.
      assert (ENDS : (2 <= q)%nat -> exists d, @Ok str [] = Ok d /\ means q lc [] d).
      { intros H2. exists []. split; [reflexivity|]. exists (left_bits q), lc. rewrite be_val_nil. change (len (@nil Z)) with 0. change (len (@nil byte)) with 0. split; [destruct q as [|[|[|[|]]]]; cbn; lia|]. split; [lia|]. split; [exact HL|]. cbn. lia. }
      destruct (Z.of_nat q <? 2) eqn:E2; cbn [orb].
      * destruct (IH q lc HQ HL) as (vs & b & R & H). exists vs, b. split; [apply EarlyPad; [lia | exact R] | exact H].
      * destruct (Z.of_nat q =? 2) eqn:E3; cbn [andb].
        -- assert (q = 2%nat) as -> by lia. pose proof (next_pad s) as NP. destruct (match find_valid (map of_urlsafe s) 0 with Some d => beqb d "="%byte | None => false end); cbn [negb].
           ++ exists [], true. split; [apply TwoPads; apply NP; reflexivity|]. cbn [orb]. apply ENDS. lia.
           ++ destruct (IH 2%nat lc HQ HL) as (vs & b & R & H). exists vs, b. split; [apply LonePad; [intros C; apply NP in C; discriminate C | exact R] | exact H].
        -- assert (q = 3%nat) as -> by lia. exists [], true. split; [apply LastPad|]. cbn [orb]. apply ENDS. lia.
    + apply beqb_neq in EC. pose proof (value_letter c EC) as V. destruct (b64_val (of_urlsafe c)) as [z|].
      * destruct V as (v & -> & BV & L). cbv zeta. assert (QM : (Z.of_nat q + 1) mod 4 = Z.of_nat (Nat.modulo (q + 1) 4)) by (destruct q as [|[|[|[|]]]]; try lia; reflexivity). rewrite QM.
        assert (HQ' : (Nat.modulo (q + 1) 4 < 4)%nat) by (apply Nat.mod_upper_bound; lia).
        assert (AL : forall n, ((Z.of_nat (Nat.modulo (q + 1) 4) + n) mod 4 =? 0) = ((Z.of_nat q + (1 + n)) mod 4 =? 0)) by (intros n; destruct q as [|[|[|[|]]]]; try lia; cbn [Nat.add Nat.modulo Nat.divmod fst snd Nat.sub Z.of_nat]; lia).
        destruct (8 <=? left_bits q + 6) eqn:E8.
        -- assert (LB : left_bits (Nat.modulo (q + 1) 4) = left_bits q + 6 - 8) by (destruct q as [|[|[|[|]]]]; cbn in *; lia). rewrite <- LB.
           destruct (IH (Nat.modulo (q + 1) 4) ((lc * 64 + Z.of_nat v) mod 2 ^ left_bits (Nat.modulo (q + 1) 4)) HQ') as (vs & b & R & H).
           { apply Z.mod_pos_bound. apply Z.pow_pos_nonneg; [lia|]. rewrite LB. lia. }
           exists (Z.of_nat v :: vs), b. split; [apply Letter; assumption|]. rewrite AL in H. rewrite len_cons. destruct (b || ((Z.of_nat q + (1 + len vs)) mod 4 =? 0)).
           ++ destruct H as (d & ED & M). rewrite ED. cbn [bind]. eexists. split; [reflexivity|]. rewrite LB in *. apply (proj1 (means_step q lc (Z.of_nat v) vs d HQ HL ltac:(lia))); [lia | exact M].
           ++ rewrite H. reflexivity.
        -- assert (LB : left_bits (Nat.modulo (q + 1) 4) = left_bits q + 6) by (destruct q as [|[|[|[|]]]]; cbn in *; lia). rewrite <- LB.
           destruct (IH (Nat.modulo (q + 1) 4) (lc * 64 + Z.of_nat v) HQ') as (vs & b & R & H).
           { rewrite LB, Z.pow_add_r by (destruct q as [|[|[|]]]; cbn; lia). change (2 ^ 6) with 64. lia. }
           exists (Z.of_nat v :: vs), b. split; [apply Letter; assumption|]. rewrite AL in H. rewrite len_cons. destruct (b || ((Z.of_nat q + (1 + len vs)) mod 4 =? 0)).
           ++ destruct H as (d & ED & M). exists d. split; [exact ED|]. apply (proj2 (means_step q lc (Z.of_nat v) vs d HQ HL ltac:(lia))); [lia | exact M].
           ++ exact H.
      * destruct (IH q lc HQ HL) as (vs & b & R & H). exists vs, b. split; [constructor; assumption | exact H].
Qed.

(** Base64WSDecode accepts a text exactly if, without spaces and line breaks, its length is not 1
    modulo 4 and, with the padding added, the letters read are ended by a padding or fill groups of
    four; the result is the bytes of the number they write, without the bits of an incomplete byte. *)
Theorem C04_decodes_exactly : forall s d, Base64WSDecode s = Ok d <->
  len (strip_ws s) mod 4 <> 1 /\
  exists vs ended, reads 0 (padded (strip_ws s)) vs ended /\ (ended = true \/ len vs mod 4 = 0) /\
    len d = 6 * len vs / 8 /\ base256 d = number64 vs / 2 ^ (6 * len vs mod 8).
Proof.
  intros s d. unfold Base64WSDecode. rewrite strip_ws_eq. set (t := strip_ws s). unfold decode_stripped. cbv zeta.
  destruct (len t mod 4 =? 1) eqn:E1; [split; [discriminate | intros [C _]; lia]|].
  assert (EP : (if len t mod 4 =? 2 then t ++ ["="%byte; "="%byte] else if len t mod 4 =? 3 then t ++ ["="%byte] else t) = padded t).
  { unfold padded. destruct (len t mod 4 =? 2); [reflexivity|]. destruct (len t mod 4 =? 3); [reflexivity | symmetry; apply app_nil_r]. }
  rewrite EP. unfold a2b_base64. destruct (loop_reads (padded t) 0 0 ltac:(lia) ltac:(cbn; lia)) as (vs & b & R & H). change (left_bits 0) with 0 in H. change (Z.of_nat 0) with 0 in H. rewrite Z.add_0_l in H.
  assert (MEAN : forall d, means 0 0 vs d <-> len d = 6 * len vs / 8 /\ base256 d = number64 vs / 2 ^ (6 * len vs mod 8)).
  { intros d0. rewrite base256_val. pose proof (len_nonneg vs) as N. pose proof (Z.div_mod (6 * len vs) 8 ltac:(lia)) as DM. pose proof (Z.mod_pos_bound (6 * len vs) 8 ltac:(lia)) as MB. unfold means. cbn [left_bits]. split.
    - intros (r & rest & Hr & HLen & Hrest & E). assert (EL : len d0 = 6 * len vs / 8) by lia. split; [exact EL|]. assert (r = 6 * len vs mod 8) as -> by lia. rewrite Z.mul_0_l, Z.add_0_l in E. rewrite E. apply Z.div_unique with rest; [left; exact Hrest | ring].
    - intros [EL EV]. exists (6 * len vs mod 8), (number64 vs mod 2 ^ (6 * len vs mod 8)). split; [exact MB|]. split; [lia|]. assert (P : 0 < 2 ^ (6 * len vs mod 8)) by (apply Z.pow_pos_nonneg; lia). split; [apply Z.mod_pos_bound, P|].
      rewrite EV, Z.mul_0_l, Z.add_0_l. rewrite Z.mul_comm. apply Z.div_mod. lia. }
  split.
  - intros HD. split; [lia|]. exists vs, b. split; [exact R|]. destruct (b || (len vs mod 4 =? 0)) eqn:EB; [|rewrite H in HD; discriminate HD].
    destruct H as (d' & ED & M). rewrite ED in HD. apply Ok_inj in HD as <-. split; [destruct b; [left; reflexivity | right; cbn in EB; lia]|]. apply MEAN, M.
  - intros [_ (vs' & b' & R' & HB & HM)]. destruct (reads_unique _ _ _ _ R _ _ R') as [-> ->]. apply MEAN in HM.
    assert (EB : b || (len vs mod 4 =? 0) = true) by (destruct HB as [->|HB]; [reflexivity | rewrite HB; apply orb_true_r]). rewrite EB in H. destruct H as (d' & ED & M). rewrite ED. f_equal.
    apply MEAN in HM as [L1 V1], M as [L2 V2]. rewrite base256_val in V1, V2. apply be_val_inj; congruence.
Qed.
Print Assumptions C04_decodes_exactly.

(** Every text has exactly one reading. *)
Theorem C04_readings : forall s, exists vs ended, reads 0 s vs ended /\ forall vs' ended', reads 0 s vs' ended' -> vs' = vs /\ ended' = ended.
Proof.
  intros s. destruct (loop_reads s 0 0 ltac:(lia) ltac:(cbn; lia)) as (vs & b & R & _). exists vs, b. split; [exact R|]. intros vs' b' R'. exact (reads_unique _ _ _ _ R _ _ R').
Qed.
Print Assumptions C04_readings.

(** Paddings at odd places and foreign characters are passed over, and everything after "YQ==" is ignored. *)
Example C04_decodes_case : Base64WSDecode (bs "=Y!W=Jj*") = Ok (bs "abc") /\ Base64WSDecode (bs "YQ==YWJj") = Ok (bs "a") /\
  (exists e, Base64WSDecode (bs "YWJjY===") = Raise e) /\ reads 0 (bs "=Y!W=Jj*") [24; 22; 9; 35] false.
Proof.
  split; [vm_compute; reflexivity|]. split; [vm_compute; reflexivity|]. split; [eexists; vm_compute; reflexivity|].
  change (bs "=Y!W=Jj*") with ["="%byte; "Y"%byte; "!"%byte; "W"%byte; "="%byte; "J"%byte; "j"%byte; "*"%byte].
  apply EarlyPad; [lia|]. apply (Letter 0 "Y"%byte 24); [left; reflexivity|]. apply Foreign; [exact (value_letter "!"%byte ltac:(discriminate)) | discriminate |].
  apply (Letter 1 "W"%byte 22); [left; reflexivity|]. apply (LonePad ["J"%byte; "j"%byte; "*"%byte]).
  { intros H. apply next_pad in H. discriminate H. }
  apply (Letter 2 "J"%byte 9); [left; reflexivity|]. apply (Letter 3 "j"%byte 35); [left; reflexivity|]. apply Foreign; [exact (value_letter "*"%byte ltac:(discriminate)) | discriminate |]. apply AtEnd.
Qed.
