(** * UtilFacts2: bit strings, hostile unpacking, mask and EMSA structure. *)
From Coq Require Import List ZArith NArith Bool Lia ZifyBool ZifyNat ZifyN.
From Coq.Init Require Import Byte.
From Verif Require Import PyBase PyFacts Sha1 Util UtilFacts.
Import ListNotations.
Local Open Scope Z_scope.
Ltac Zify.zify_post_hook ::= Z.div_mod_to_equations.

(** All bytes. *)
Definition all_bytes : list byte := map (fun n => chr (Z.of_nat n)) (seq 0 256).

Lemma in_all_bytes b : In b all_bytes.
Proof.
  unfold all_bytes. apply in_map_iff. exists (Z.to_nat (ord b)).
  pose proof (ord_range b). split.
  - rewrite Z2Nat.id by lia. apply chr_ord.
  - apply in_seq. lia.
Qed.

Lemma forall_bytes (P : byte -> bool) : forallb P all_bytes = true -> forall b, P b = true.
Proof. intros H b. rewrite forallb_forall in H. apply H, in_all_bytes. Qed.

(** ** Bit strings *)
Definition bits8 (b : byte) : str := PadByte (IntToBin (ord b)).

Lemma bits8_ok b : len (bits8 b) = 8 /\ int_base2 (bits8 b) = Ok (ord b).
Proof.
  pose (P := fun b => (len (bits8 b) =? 8) &&
     match int_base2 (bits8 b) with Ok v => v =? ord b | _ => false end).
  assert (H : P b = true) by (apply forall_bytes; vm_compute; reflexivity).
  unfold P in H. apply andb_true_iff in H as [H1 H2].
  destruct (int_base2 (bits8 b)); [|discriminate].
  split; [lia | f_equal; lia].
Qed.

Lemma len_BytesToBin s : len (BytesToBin s) = 8 * len s.
Proof.
  unfold BytesToBin. induction s as [|b s IH]; [reflexivity|].
  cbn [map concat]. rewrite len_app, IH, len_cons. fold (bits8 b).
  destruct (bits8_ok b) as [-> _]. lia.
Qed.

Lemma octets_bits s pre :
  map (fun i => slice (pre ++ BytesToBin s) (len pre + 8 * Z.of_nat i) (len pre + 8 * (Z.of_nat i + 1)))
    (seq 0 (length s)) = map bits8 s.
Proof.
  revert pre. induction s as [|b s IH]; intros pre; [reflexivity|].
  cbn [length seq map]. unfold BytesToBin. cbn [map concat]. fold (BytesToBin s). fold (bits8 b).
  destruct (bits8_ok b) as [Hl _]. apply (f_equal2 cons).
  - apply slice_mid_app; lia.
  - rewrite <- (IH (pre ++ bits8 b)). rewrite <- seq_shift, map_map.
    apply map_ext. intros i. rewrite <- app_assoc. f_equal; rewrite len_app, Hl; lia.
Qed.

Lemma BinToBytes_BytesToBin s : BinToBytes (BytesToBin s) = Ok s.
Proof.
  unfold BinToBytes. unfold PadByte. rewrite len_BytesToBin.
  replace ((8 * len s) mod 8) with 0 by lia. change ((8 - 0) mod 8) with 0.
  cbn [rep Z.to_nat repeat app]. cbv zeta. unfold rep. cbn [Z.to_nat repeat app].
  rewrite len_BytesToBin. replace (8 * len s / 8) with (len s) by lia. rewrite len_length.
  pose proof (octets_bits s []) as H. cbn [app] in H. change (len (@nil byte)) with 0 in H.
  rewrite (map_ext _ (fun i => slice (BytesToBin s) (0 + 8 * Z.of_nat i) (0 + 8 * (Z.of_nat i + 1)))).
  2:{ intros i. f_equal; lia. }
  rewrite H. clear H. induction s as [|b s IH]; [reflexivity|].
  cbn [map mapM]. destruct (bits8_ok b) as [_ ->]. cbn [bind].
  rewrite chr_ord. rewrite IH. reflexivity.
Qed.

(** [IntToBin] *)
Lemma int_base2_loop_app x y acc :
  int_base2_loop acc (x ++ y) = let* a := int_base2_loop acc x in int_base2_loop a y.
Proof.
  revert acc. induction x as [|c x IH]; intros acc; cbn [app int_base2_loop bind]; [reflexivity|].
  destruct (beqb c "0"%byte); [apply IH|]. destruct (beqb c "1"%byte); [apply IH | reflexivity].
Qed.

Lemma int_to_bin_val fuel n :
  0 <= n < 2 ^ Z.of_nat fuel -> (0 < fuel)%nat ->
  int_base2_loop 0 (int_to_bin fuel n) = Ok n /\
  (exists c s, int_to_bin fuel n = c :: s /\ (n <> 0 -> c = "1"%byte) /\ (n = 0 -> c = "0"%byte /\ s = [])).
Proof.
  revert n. induction fuel as [|f IH]; intros n Hn Hf; [lia|].
  cbn [int_to_bin].
  destruct (Z.eqb_spec n 0) as [->|N0].
  { split; [reflexivity|]. exists "0"%byte, []. repeat split; congruence. }
  destruct (Z.eqb_spec n 1) as [->|N1].
  { split; [reflexivity|]. exists "1"%byte, []. repeat split; congruence. }
  rewrite Nat2Z.inj_succ, Z.pow_succ_r in Hn by lia.
  assert (0 < f)%nat by (destruct f; [cbn in Hn; lia | lia]).
  destruct (IH (n / 2) ltac:(lia) ltac:(assumption)) as (IV & c & s & E & Hc & _).
  assert (c = "1"%byte) as -> by (apply Hc; lia).
  destruct (Z.eqb_spec (n mod 2) 0) as [M|M].
  - split.
    + rewrite int_base2_loop_app, IV. cbn [bind int_base2_loop]. 
      change (beqb "0"%byte "0"%byte) with true. cbv iota. f_equal. lia.
    + rewrite E. exists "1"%byte, (s ++ ["0"%byte]). repeat split; intros; congruence.
  - split.
    + rewrite int_base2_loop_app, IV. cbn [bind int_base2_loop].
      change (beqb "1"%byte "0"%byte) with false. change (beqb "1"%byte "1"%byte) with true.
      cbv iota. f_equal. lia.
    + rewrite E. exists "1"%byte, (s ++ ["1"%byte]). repeat split; intros; congruence.
Qed.

Lemma IntToBin_val n : 0 <= n ->
  int_base2 (IntToBin n) = Ok n /\
  (exists c s, IntToBin n = c :: s /\ (n <> 0 -> c = "1"%byte) /\ (n = 0 -> c = "0"%byte /\ s = [])).
Proof.
  intros H. unfold IntToBin. pose proof (Z.log2_nonneg n).
  destruct (int_to_bin_val (Z.to_nat (Z.log2 n + 1)) n) as (V & c & s & E & R).
  - split; [assumption | apply log2_fuel; assumption].
  - lia.
  - split; [|exists c, s; split; assumption].
    unfold int_base2. rewrite E in *. exact V.
Qed.

(** ** Unpacking arbitrary data *)
Lemma unpack_loop_exn fuel data : forall pos acc e,
  unpack_loop fuel data pos acc = Raise e -> e = StructError \/ e = Diverge.
Proof.
  induction fuel as [|f IH]; intros pos acc e H; cbn [unpack_loop] in H;
    destruct (pos <? len data); try discriminate.
  - right; congruence.
  - apply bind_Raise in H as [H | ([a p] & _ & H)].
    + left. unfold UnpackByteArray in H. apply bind_Raise in H as [H | (n & _ & H)]; [|discriminate].
      unfold struct_unpack_i in H. destruct (slice _ _ _) as [|? [|? [|? [|? [|]]]]]; congruence.
    + eapply IH; eassumption.
Qed.

Lemma unpack_loop_mono fuel data : forall pos acc,
  unpack_loop fuel data pos acc <> Raise Diverge ->
  forall k, (fuel <= k)%nat -> unpack_loop k data pos acc = unpack_loop fuel data pos acc.
Proof.
  induction fuel as [|f IH]; intros pos acc H k Hk.
  - cbn [unpack_loop] in *. destruct k; cbn [unpack_loop]; destruct (pos <? len data); congruence.
  - destruct k as [|k]; [lia|]. cbn [unpack_loop] in *.
    destruct (pos <? len data); [|reflexivity].
    destruct (UnpackByteArray data pos) as [[a p]|e]; cbn [bind] in *; [|reflexivity].
    apply IH; [assumption | lia].
Qed.

(** Every length field that can be read is greater than -4. *)
Definition lengths_sane (data : str) : Prop :=
  forall off n, 4 <= off -> struct_unpack_i (slice data off (off + 4)) = Ok n -> -4 < n.

Lemma unpack_loop_terminates data : lengths_sane data -> forall fuel pos acc,
  4 <= pos -> len data - pos <= Z.of_nat fuel -> unpack_loop fuel data pos acc <> Raise Diverge.
Proof.
  intros HS. induction fuel as [|f IH]; intros pos acc Hp Hf; cbn [unpack_loop];
    destruct (Z.ltb_spec pos (len data)); try congruence; try lia.
  unfold UnpackByteArray.
  destruct (struct_unpack_i (slice data pos (pos + 4))) as [n|e] eqn:E; cbn [bind].
  - apply HS in E; [|assumption]. apply IH; lia.
  - unfold struct_unpack_i in E. destruct (slice _ _ _) as [|? [|? [|? [|? [|]]]]]; congruence.
Qed.

(** ** MGF by byte position *)
Lemma mgf_stream_nth seed n i :
  (i < 20 * n)%nat ->
  nth_error (mgf_stream seed n) i =
    nth_error (Hash [seed; IntToBytes (Z.of_nat (i / 20))]) (i mod 20)%nat.
Proof.
  induction n as [|n IH]; intros Hi; [lia|].
  rewrite mgf_stream_S. pose proof (len_mgf_stream seed n) as HL. unfold len in HL.
  destruct (Nat.lt_ge_cases i (20 * n)) as [L|L].
  - rewrite nth_error_app1 by lia. apply IH; assumption.
  - rewrite nth_error_app2 by lia.
    replace (length (mgf_stream seed n)) with (20 * n)%nat by lia.
    assert (i / 20 = n)%nat as -> by (symmetry; apply (Nat.div_unique i 20 n (i - 20 * n)); lia).
    f_equal. apply (Nat.mod_unique i 20 n (i - 20 * n)); lia.
Qed.

Lemma nth_error_firstn {A} (l : list A) n i : (i < n)%nat -> nth_error (firstn n l) i = nth_error l i.
Proof.
  revert n i. induction l as [|a l IH]; intros [|n] [|i] H; try lia; cbn; try reflexivity.
  apply IH. lia.
Qed.

Lemma MGF_nth seed n m i :
  0 <= n -> MGF seed n = Ok m -> (i < Z.to_nat n)%nat ->
  nth_error m i = nth_error (Hash [seed; IntToBytes (Z.of_nat (i / 20))]) (i mod 20)%nat.
Proof.
  intros Hn E Hi. apply (MGF_any seed n (Z.to_nat n)) in E; [|assumption|lia]. subst m.
  rewrite nth_error_firstn by assumption. apply mgf_stream_nth. lia.
Qed.

(** ** Associativity of padding lengths etc. *)
Lemma Xor_left_pad a b : len a <= len b -> Xor a b = xorl (rep (len b - len a) x00 ++ a) b.
Proof.
  intros H. rewrite Xor_general. unfold PadBytes. rewrite (len_rep_neg (len a - len b)) by lia.
  reflexivity.
Qed.
