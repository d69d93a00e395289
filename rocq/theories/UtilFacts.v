(** * UtilFacts: proofs about util.py. *)
From Coq Require Import List ZArith NArith Bool Lia ZifyBool ZifyNat ZifyN.
From Coq.Init Require Import Byte.
From Verif Require Import PyBase PyFacts Sha1 Util.
Import ListNotations.
Local Open Scope Z_scope.
Ltac Zify.zify_post_hook ::= Z.div_mod_to_equations.

(** ** Big-endian value of a string (Horner form). *)
Fixpoint be_acc (acc : Z) (s : str) : Z :=
  match s with [] => acc | b :: s' => be_acc (acc * 256 + ord b) s' end.
Definition be_val (s : str) : Z := be_acc 0 s.

Lemma be_acc_lin acc s : be_acc acc s = acc * 256 ^ len s + be_val s.
Proof.
  unfold be_val. revert acc. induction s as [|b s IH]; intros acc; cbn [be_acc].
  - rewrite len_nil. lia.
  - rewrite IH, (IH (0 * 256 + ord b)), len_cons.
    rewrite Z.pow_add_r by (pose proof (len_nonneg s); lia). ring.
Qed.

Lemma be_val_nil : be_val [] = 0.
Proof. reflexivity. Qed.
Lemma be_val_cons b s : be_val (b :: s) = ord b * 256 ^ len s + be_val s.
Proof. unfold be_val. cbn [be_acc]. rewrite be_acc_lin. reflexivity. Qed.
Lemma be_val_app s t : be_val (s ++ t) = be_val s * 256 ^ len t + be_val t.
Proof.
  induction s as [|b s IH]; cbn [app]; [rewrite be_val_nil; lia|].
  rewrite !be_val_cons, IH, len_app.
  rewrite Z.pow_add_r by apply len_nonneg. ring.
Qed.
Lemma be_val_bound s : 0 <= be_val s < 256 ^ len s.
Proof.
  induction s as [|b s IH]; [rewrite be_val_nil; cbn; lia|].
  rewrite be_val_cons, len_cons, Z.pow_add_r by (pose proof (len_nonneg s); lia).
  pose proof (ord_range b). change (256 ^ 1) with 256. nia.
Qed.
Lemma be_val_rep0 n s : be_val (rep n x00 ++ s) = be_val s.
Proof.
  unfold rep. induction (Z.to_nat n) as [|k IH]; cbn [repeat app]; [reflexivity|].
  rewrite be_val_cons, IH. change (ord x00) with 0. lia.
Qed.

Lemma be_val_inj s t : len s = len t -> be_val s = be_val t -> s = t.
Proof.
  revert t. induction s as [|a s IH]; intros [|b t] HL HV; rewrite ?len_cons, ?len_nil in HL;
    try (pose proof (len_nonneg s)); try (pose proof (len_nonneg t)); try lia; [reflexivity|].
  rewrite !be_val_cons in HV. assert (len s = len t) as L by lia. rewrite L in HV.
  pose proof (be_val_bound s) as Bs. pose proof (be_val_bound t) as Bt. rewrite L in Bs.
  assert (ord a = ord b) as E by nia. apply ord_inj in E. subst b.
  f_equal. apply IH; [assumption | lia].
Qed.

Lemma BytesToLong_val s : BytesToLong s = be_val s.
Proof.
  unfold BytesToLong. cbv zeta.
  assert (G : forall t p, fold_right Z.add 0
     (map (fun i => match nth_error (p ++ t) i with
                    | Some b => ord b * 256 ^ (len (p ++ t) - 1 - Z.of_nat i) | None => 0 end)
        (seq (length p) (length t))) = be_val t).
  { induction t as [|b t IH]; intros p; [reflexivity|].
    cbn [length seq map fold_right]. rewrite nth_error_app2 by lia. rewrite Nat.sub_diag.
    cbn [nth_error]. rewrite be_val_cons. f_equal.
    - f_equal. f_equal. rewrite len_app, len_cons. unfold len. lia.
    - specialize (IH (p ++ [b])). rewrite app_length in IH. cbn [length] in IH.
      rewrite Nat.add_1_r in IH. rewrite <- app_assoc in IH. exact IH. }
  exact (G s []).
Qed.

(** ** BigIntToBytes *)
Lemma bigint_loop_val fuel n :
  0 <= n < 2 ^ Z.of_nat fuel ->
  be_val (rev (bigint_loop fuel n)) = n.
Proof.
  revert n. induction fuel as [|f IH]; intros n Hn; cbn [bigint_loop].
  - cbn in Hn. cbn. lia.
  - destruct (Z.ltb_spec 0 n); [|cbn; lia].
    cbn [rev]. rewrite be_val_app.
    assert (Hs : Z.shiftr n 8 = n / 256) by (rewrite Z.shiftr_div_pow2 by lia; reflexivity).
    rewrite IH.
    + rewrite be_val_cons, be_val_nil, ord_chr, Hs, len_cons, !len_nil. lia.
    + rewrite Hs. rewrite Nat2Z.inj_succ, Z.pow_succ_r in Hn by lia. lia.
Qed.

Lemma log2_fuel n : 0 <= n -> n < 2 ^ Z.of_nat (Z.to_nat (Z.log2 n + 1)).
Proof.
  intros H. pose proof (Z.log2_nonneg n). rewrite Z2Nat.id by lia.
  destruct (Z.eq_dec n 0) as [->|E]; [reflexivity|].
  pose proof (Z.log2_spec n ltac:(lia)). rewrite Z.add_1_r. lia.
Qed.

Lemma BigIntToBytes_val n : 0 <= n -> be_val (BigIntToBytes n) = n.
Proof. intros H. apply bigint_loop_val. split; [assumption | apply log2_fuel; assumption]. Qed.

(** No leading zero byte. *)
Lemma bigint_loop_head fuel n :
  0 <= n < 2 ^ Z.of_nat fuel ->
  match rev (bigint_loop fuel n) with [] => n = 0 | b :: _ => b <> x00 /\ n <> 0 end.
Proof.
  revert n. induction fuel as [|f IH]; intros n Hn; cbn [bigint_loop].
  - cbn in Hn. cbn. lia.
  - destruct (Z.ltb_spec 0 n) as [Hp|Hp]; [|cbn; lia].
    cbn [rev].
    assert (Hs : Z.shiftr n 8 = n / 256) by (rewrite Z.shiftr_div_pow2 by lia; reflexivity).
    specialize (IH (Z.shiftr n 8)). rewrite Hs in *.
    rewrite Nat2Z.inj_succ, Z.pow_succ_r in Hn by lia.
    specialize (IH ltac:(lia)).
    destruct (rev (bigint_loop f (n / 256))) as [|b t] eqn:E; cbn [app].
    + split; [|lia]. intros C. apply (f_equal ord) in C. rewrite ord_chr in C.
      change (ord x00) with 0 in C. lia.
    + split; [apply IH | lia].
Qed.

Lemma BigIntToBytes_head n : 0 <= n ->
  match BigIntToBytes n with [] => n = 0 | b :: _ => b <> x00 /\ n <> 0 end.
Proof. intros H. apply bigint_loop_head. split; [assumption | apply log2_fuel; assumption]. Qed.

(** More fuel changes nothing: the loop has ended. *)
Lemma BigIntToBytes_fuel n k :
  (Z.to_nat (Z.log2 n + 1) <= k)%nat -> rev (bigint_loop k n) = BigIntToBytes n.
Proof.
  unfold BigIntToBytes. intros H. f_equal.
  destruct (Z.le_gt_cases n 0) as [Hn|Hn].
  { destruct k; destruct (Z.to_nat (Z.log2 n + 1)); cbn [bigint_loop]; try reflexivity;
      destruct (Z.ltb_spec 0 n); try lia; reflexivity. }
  assert (B : n < 2 ^ Z.of_nat (Z.to_nat (Z.log2 n + 1))) by (apply log2_fuel; lia).
  remember (Z.to_nat (Z.log2 n + 1)) as j. clear Heqj.
  assert (0 <= n) as Hn0 by lia. clear Hn.
  revert k n H B Hn0. induction j as [|j IH]; intros k n H B Hn.
  - cbn in B. assert (n = 0) by lia. subst. destruct k; reflexivity.
  - destruct k as [|k]; [lia|]. cbn [bigint_loop].
    destruct (Z.ltb_spec 0 n); [|reflexivity]. f_equal. 
    rewrite Nat2Z.inj_succ, Z.pow_succ_r in B by lia.
    rewrite Z.shiftr_div_pow2 by lia. change (2 ^ 8) with 256.
    apply IH; lia.
Qed.

(** Characterisation: the unique string of that value without leading zeros. *)
Lemma be_val_unique s t :
  be_val s = be_val t ->
  match s with [] => True | b :: _ => b <> x00 end ->
  match t with [] => True | b :: _ => b <> x00 end -> s = t.
Proof.
  intros HV Hs Ht. apply be_val_inj; [|assumption].
  assert (A : forall u v : str, match u with [] => True | b :: _ => b <> x00 end ->
     be_val u = be_val v -> len u <= len v).
  { intros u v Hu E. destruct (Z.le_gt_cases (len u) (len v)) as [|L]; [assumption|exfalso].
    destruct u as [|b u]; [rewrite len_nil in L; pose proof (len_nonneg v); lia|].
    rewrite len_cons in L. rewrite be_val_cons in E.
    assert (ord b <> 0) by (intros C; apply Hu; apply ord_inj; exact C).
    pose proof (ord_range b). pose proof (be_val_bound u). pose proof (be_val_bound v).
    assert (256 ^ len v <= 256 ^ len u) by (apply Z.pow_le_mono_r; lia). nia. }
  apply Z.le_antisymm; apply A; auto.
Qed.

Lemma BigIntToBytes_BytesToLong s : BigIntToBytes (BytesToLong s) = lstrip x00 s.
Proof.
  rewrite BytesToLong_val. apply be_val_unique.
  - rewrite BigIntToBytes_val by apply be_val_bound.
    destruct (lstrip_decomp x00 s) as [n E]. rewrite E at 1.
    replace (repeat x00 n) with (rep (Z.of_nat n) x00) by (unfold rep; f_equal; lia).
    apply be_val_rep0.
  - pose proof (BigIntToBytes_head (be_val s) (proj1 (be_val_bound s))) as H.
    destruct (BigIntToBytes (be_val s)); [exact I | apply H].
  - apply lstrip_head.
Qed.

Lemma be_val_lstrip s : be_val (lstrip x00 s) = be_val s.
Proof.
  destruct (lstrip_decomp x00 s) as [n E]. rewrite E at 2.
  replace (repeat x00 n) with (rep (Z.of_nat n) x00) by (unfold rep; f_equal; lia).
  symmetry. apply be_val_rep0.
Qed.

Lemma chr0 : chr 0 = x00.
Proof. reflexivity. Qed.

Lemma TrimBytes_val s : be_val (TrimBytes s) = be_val s.
Proof.
  unfold TrimBytes. rewrite chr0. cbv zeta. destruct (str_eqb (lstrip x00 s) []) eqn:E.
  - apply str_eqb_eq in E. rewrite <- (be_val_lstrip s), E. reflexivity.
  - apply be_val_lstrip.
Qed.

Lemma PadBytes_val s n : be_val (PadBytes s n) = be_val s.
Proof. apply be_val_rep0. Qed.

Lemma len_bound_BigInt n k : 0 <= n -> 0 <= k -> (len (BigIntToBytes n) <= k <-> n < 256 ^ k).
Proof.
  intros Hn Hk. pose proof (BigIntToBytes_val n Hn) as V. pose proof (BigIntToBytes_head n Hn) as H.
  pose proof (be_val_bound (BigIntToBytes n)) as B. rewrite V in B. split; intros C.
  - assert (256 ^ len (BigIntToBytes n) <= 256 ^ k) by (apply Z.pow_le_mono_r; lia). lia.
  - destruct (Z.le_gt_cases (len (BigIntToBytes n)) k) as [|L]; [assumption|exfalso].
    destruct (BigIntToBytes n) as [|b t]; [rewrite len_nil in L; lia|].
    rewrite be_val_cons in V. rewrite len_cons in L. destruct H as [H _].
    assert (ord b <> 0) by (intros E; apply H; apply ord_inj; exact E).
    pose proof (ord_range b). pose proof (be_val_bound t).
    assert (256 ^ k <= 256 ^ len t) by (apply Z.pow_le_mono_r; lia). nia.
Qed.

(** ** IntToBytes / struct *)
Lemma len_IntToBytes n : len (IntToBytes n) = 4.
Proof. reflexivity. Qed.

Lemma IntToBytes_val n : be_val (IntToBytes n) = n mod 2 ^ 32.
Proof.
  unfold IntToBytes, be_val. cbn [be_acc]. rewrite !ord_chr, !Z.mod_mod by lia.
  rewrite !Z.shiftr_div_pow2 by lia. change (2 ^ 24) with 16777216. change (2 ^ 16) with 65536.
  change (2 ^ 8) with 256. change (2 ^ 32) with 4294967296. lia.
Qed.

Lemma be32_IntToBytes n : be32 n = IntToBytes n.
Proof.
  unfold be32, IntToBytes. rewrite !Z.shiftr_div_pow2 by lia. rewrite !chr_mod. reflexivity.
Qed.

Lemma of_be32_val a b c d : of_be32 a b c d = be_val [a; b; c; d].
Proof. unfold of_be32, be_val. cbn [be_acc]. lia. Qed.

Lemma unpack_pack n : - 2 ^ 31 <= n < 2 ^ 31 -> struct_unpack_i (IntToBytes n) = Ok n.
Proof.
  intros H. pose proof (IntToBytes_val n) as V.
  unfold struct_unpack_i, IntToBytes in *. cbv zeta.
  rewrite of_be32_val, V. f_equal.
  change (2 ^ 32) with 4294967296 in *. change (2 ^ 31) with 2147483648 in *.
  destruct (Z.ltb_spec (n mod 4294967296) 2147483648); lia.
Qed.

Lemma struct_pack_ok n : - 2 ^ 31 <= n < 2 ^ 31 -> struct_pack_i n = Ok (IntToBytes n).
Proof. intros H. unfold struct_pack_i. replace (_ && _) with true by lia. reflexivity. Qed.

Lemma struct_pack_err n : ~ (- 2 ^ 31 <= n < 2 ^ 31) -> struct_pack_i n = Raise StructError.
Proof. intros H. unfold struct_pack_i. replace (_ && _) with false by lia. reflexivity. Qed.

Lemma struct_unpack_range s n : struct_unpack_i s = Ok n -> len s = 4 /\ - 2 ^ 31 <= n < 2 ^ 31.
Proof.
  unfold struct_unpack_i. intros H.
  destruct s as [|a [|b [|c [|d [|]]]]]; try discriminate. injection H as H.
  split; [reflexivity|]. rewrite of_be32_val in H.
  pose proof (be_val_bound [a; b; c; d]) as B.
  change (256 ^ len [a; b; c; d]) with 4294967296 in B.
  change (2 ^ 31) with 2147483648 in *. change (2 ^ 32) with 4294967296 in *.
  change (Z.pow_pos 2 31) with 2147483648 in H. change (Z.pow_pos 2 32) with 4294967296 in H.
  destruct (be_val [a; b; c; d] <? 2147483648) eqn:E; lia.
Qed.

(** ** Xor *)
Definition xorl (a b : str) : str := map (fun p => bxor (fst p) (snd p)) (combine a b).

Lemma len_xorl a b : len a = len b -> len (xorl a b) = len a.
Proof. intros H. unfold xorl. rewrite len_map. unfold len in *. rewrite combine_length. lia. Qed.

Lemma xorl_comm a b : xorl a b = xorl b a.
Proof.
  unfold xorl. revert b. induction a as [|x a IH]; intros [|y b]; cbn; try reflexivity.
  rewrite bxor_comm. f_equal. apply IH.
Qed.

Lemma xorl_cancel a b : len a = len b -> xorl (xorl a b) b = a.
Proof.
  unfold len. revert b. induction a as [|x a IH]; intros [|y b] H; cbn [length] in H; try lia; [reflexivity|].
  unfold xorl in *. cbn [combine map fst snd]. rewrite bxor_cancel. f_equal. apply IH. lia.
Qed.

Lemma xorl_assoc a b c : xorl (xorl a b) c = xorl a (xorl b c).
Proof.
  revert b c. induction a as [|x a IH]; intros [|y b] [|z c]; try reflexivity.
  unfold xorl in *. cbn [combine map fst snd]. rewrite bxor_assoc. f_equal. apply IH.
Qed.

Lemma Xor_same a b : len a = len b -> Xor a b = xorl a b.
Proof.
  intros H. unfold Xor. cbv zeta. rewrite H, Z.max_id.
  destruct (Z.ltb_spec (len b) (len b)); [lia|]. reflexivity.
Qed.

Lemma Xor_general a b :
  Xor a b = xorl (PadBytes a (len b - len a)) (PadBytes b (len a - len b)).
Proof.
  unfold Xor. cbv zeta. unfold PadBytes.
  destruct (Z.ltb_spec (len a) (Z.max (len a) (len b))).
  - rewrite Z.max_r by lia. rewrite (len_rep_neg (len a - len b)) by lia. reflexivity.
  - destruct (Z.ltb_spec (len b) (Z.max (len a) (len b))).
    + rewrite Z.max_l by lia. rewrite (len_rep_neg (len b - len a)) by lia. reflexivity.
    + assert (len a = len b) as -> by lia. rewrite Z.sub_diag. reflexivity.
Qed.

Lemma len_PadBytes s n : len (PadBytes s n) = Z.max 0 n + len s.
Proof.
  unfold PadBytes. rewrite len_app. unfold len, rep. rewrite repeat_length. lia.
Qed.

Lemma len_Xor a b : len (Xor a b) = Z.max (len a) (len b).
Proof.
  rewrite Xor_general, len_xorl; rewrite !len_PadBytes; lia.
Qed.

Lemma Xor_comm a b : Xor a b = Xor b a.
Proof. rewrite !Xor_general. apply xorl_comm. Qed.

Lemma Xor_cancel a b : len a = len b -> Xor (Xor a b) b = a.
Proof.
  intros H. rewrite (Xor_same a b H). rewrite Xor_same by (rewrite len_xorl by assumption; assumption).
  apply xorl_cancel. assumption.
Qed.

(** ** Hash lengths *)
Lemma len_sha1 s : len (sha1 s) = 20.
Proof. reflexivity. Qed.
Lemma len_Hash l : len (Hash l) = 20.
Proof. reflexivity. Qed.
Lemma len_PrefixHash l : len (PrefixHash l) = 20.
Proof. reflexivity. Qed.
Lemma len_hmac k m : len (hmac_sha1 k m) = 20.
Proof. reflexivity. Qed.

Global Opaque sha1 hmac_sha1.

(** ** RandBytes *)
Lemma len_RandBytes r n : 0 <= n -> len (RandBytes r n) = n.
Proof. intros H. unfold RandBytes, len. rewrite map_length, seq_length. lia. Qed.

(** ** MGF *)
Definition mgf_stream (seed : str) (n : nat) : str :=
  concat (map (fun i => Hash [seed; IntToBytes (Z.of_nat i)]) (seq 0 n)).

Lemma mgf_stream_S seed n :
  mgf_stream seed (S n) = mgf_stream seed n ++ Hash [seed; IntToBytes (Z.of_nat n)].
Proof.
  unfold mgf_stream. rewrite seq_S, map_app, concat_app. cbn [map concat].
  rewrite app_nil_r. reflexivity.
Qed.

Lemma len_mgf_stream seed n : len (mgf_stream seed n) = 20 * Z.of_nat n.
Proof.
  induction n as [|n IH]; [reflexivity|].
  rewrite mgf_stream_S, len_app, IH, len_Hash. lia.
Qed.

Lemma mgf_stream_add seed n m : exists t, mgf_stream seed (n + m) = mgf_stream seed n ++ t.
Proof.
  induction m as [|m [t IH]].
  - exists []. rewrite Nat.add_0_r, app_nil_r. reflexivity.
  - rewrite Nat.add_succ_r, mgf_stream_S, IH, <- app_assoc. eauto.
Qed.

Lemma MGF_ok seed n : 0 <= n <= 2 ^ 32 * 20 ->
  MGF seed n = Ok (firstn (Z.to_nat n) (mgf_stream seed (Z.to_nat ((n + 19) / 20)))).
Proof.
  intros H. unfold MGF, HLEN. destruct (Z.ltb_spec (2 ^ 32 * 20) n); [lia|].
  cbv zeta. rewrite slice_to_firstn by lia. unfold mgf_stream.
  do 6 f_equal. lia.
Qed.

Lemma MGF_len seed n m : 0 <= n -> MGF seed n = Ok m -> len m = n.
Proof.
  intros H E. destruct (Z.ltb_spec (2 ^ 32 * 20) n) as [L|L].
  - unfold MGF, HLEN in E. apply Z.ltb_lt in L. rewrite L in E. discriminate.
  - rewrite MGF_ok in E by lia. injection E as <-.
    rewrite len_firstn; [lia|].
    pose proof (len_mgf_stream seed (Z.to_nat ((n + 19) / 20))). unfold len in *. lia.
Qed.

Lemma MGF_any seed n k m : 0 <= n -> n <= 20 * Z.of_nat k -> MGF seed n = Ok m ->
  m = firstn (Z.to_nat n) (mgf_stream seed k).
Proof.
  intros H0 H1 E. destruct (Z.ltb_spec (2 ^ 32 * 20) n) as [L|L].
  - unfold MGF, HLEN in E. apply Z.ltb_lt in L. rewrite L in E. discriminate.
  - rewrite MGF_ok in E by lia. injection E as <-.
    set (j := Z.to_nat ((n + 19) / 20)).
    destruct (mgf_stream_add seed j (k - j)) as [t Ht].
    replace (j + (k - j))%nat with k in Ht by lia. rewrite Ht.
    rewrite firstn_app. pose proof (len_mgf_stream seed j) as Hl. unfold len in Hl.
    replace (Z.to_nat n - length (mgf_stream seed j))%nat with O by lia.
    cbn [firstn]. rewrite app_nil_r. reflexivity.
Qed.

(** ** EMSA *)
Lemma len_magic : len magic_sha1_header = 15.
Proof. reflexivity. Qed.

Lemma len_Emsa msg size : 38 <= size / 8 -> len (MakeEmsaMessage msg size) = size / 8 - 1.
Proof.
  intros H. unfold MakeEmsaMessage. cbv zeta.
  set (encoded := magic_sha1_header ++ Hash [msg]).
  assert (HE : len encoded = 35) by (unfold encoded; rewrite len_app, len_magic, len_Hash; reflexivity).
  rewrite !len_app, HE, !len_cons, !len_nil, len_rep by lia. lia.
Qed.

(** ** Packing *)
Lemma PackByteArray_ok a : len a < 2 ^ 31 -> PackByteArray (Some a) = Ok (IntToBytes (len a) ++ a).
Proof.
  intros H. unfold PackByteArray. rewrite struct_pack_ok by (pose proof (len_nonneg a); lia).
  reflexivity.
Qed.

Lemma PackByteArray_inv a p : PackByteArray (Some a) = Ok p ->
  len a < 2 ^ 31 /\ p = IntToBytes (len a) ++ a.
Proof.
  intros H. unfold PackByteArray in H.
  destruct (Z.lt_ge_cases (len a) (2 ^ 31)) as [L|L].
  - rewrite struct_pack_ok in H by (pose proof (len_nonneg a); lia). cbn [bind] in H.
    split; [assumption | congruence].
  - rewrite struct_pack_err in H by lia. discriminate.
Qed.

Lemma UnpackByteArray_at pre a post :
  len a < 2 ^ 31 ->
  UnpackByteArray (pre ++ (IntToBytes (len a) ++ a) ++ post) (len pre)
  = Ok (a, len pre + 4 + len a).
Proof.
  intros H. pose proof (len_nonneg a) as Ha. unfold UnpackByteArray.
  rewrite <- app_assoc.
  rewrite (slice_mid_app pre (IntToBytes (len a)) (a ++ post)) by (rewrite ?len_IntToBytes; lia).
  rewrite unpack_pack by lia. cbn [bind].
  replace (pre ++ IntToBytes (len a) ++ a ++ post)
    with ((pre ++ IntToBytes (len a)) ++ a ++ post) by (rewrite <- app_assoc; reflexivity).
  rewrite slice_mid_app by (rewrite ?len_app, ?len_IntToBytes; lia). reflexivity.
Qed.

Definition packed (a : str) : str := IntToBytes (len a) ++ a.

Lemma len_packed a : len (packed a) = 4 + len a.
Proof. unfold packed. rewrite len_app, len_IntToBytes. reflexivity. Qed.

Lemma packed_inj a b c d : len a < 2 ^ 31 -> len b < 2 ^ 31 ->
  packed a ++ c = packed b ++ d -> a = b /\ c = d.
Proof.
  intros Ha Hb H. unfold packed in H. rewrite <- !app_assoc in H.
  apply app_inv_len in H as [H1 H2]; [|reflexivity].
  apply (f_equal struct_unpack_i) in H1. pose proof (len_nonneg a). pose proof (len_nonneg b).
  rewrite !unpack_pack in H1 by lia. injection H1 as H1.
  apply app_inv_len in H2; [assumption | lia].
Qed.

Lemma unpack_loop_packed arrays : forall fuel pre acc,
  (length arrays <= fuel)%nat -> Forall (fun a => len a < 2 ^ 31) arrays ->
  unpack_loop fuel (pre ++ concat (map packed arrays)) (len pre) acc
  = Ok (acc ++ arrays, len pre + len (concat (map packed arrays))).
Proof.
  induction arrays as [|a arrays IH]; intros fuel pre acc Hf HF; cbn [map concat].
  - rewrite !app_nil_r. destruct fuel; cbn [unpack_loop]; rewrite Z.ltb_irrefl, len_nil;
      rewrite Z.add_0_r; reflexivity.
  - inversion HF as [|? ? Ha HF']; subst. destruct fuel as [|fuel]; [cbn in Hf; lia|].
    cbn [unpack_loop length] in *.
    pose proof (len_nonneg a). pose proof (len_nonneg (concat (map packed arrays))).
    destruct (Z.ltb_spec (len pre) (len (pre ++ packed a ++ concat (map packed arrays)))) as [L|L].
    2:{ rewrite !len_app, len_packed in L. lia. }
    unfold packed at 1. rewrite UnpackByteArray_at by assumption. cbn [bind].
    fold (packed a). rewrite app_assoc.
    replace (len pre + 4 + len a) with (len (pre ++ packed a)) by (rewrite len_app, len_packed; lia).
    rewrite IH by (assumption || lia). rewrite <- app_assoc. cbn [app].
    f_equal. f_equal. rewrite !len_app. lia.
Qed.

Lemma PackMultiple_ok arrays :
  len arrays < 2 ^ 31 -> Forall (fun a => len a < 2 ^ 31) arrays ->
  PackMultipleByteArrays (map Some arrays) = Ok (IntToBytes (len arrays) ++ concat (map packed arrays)).
Proof.
  intros Hn HF. unfold PackMultipleByteArrays. rewrite len_map.
  rewrite struct_pack_ok by (pose proof (len_nonneg arrays); lia). cbn [bind].
  assert (mapM PackByteArray (map Some arrays) = Ok (map packed arrays)) as ->.
  { clear Hn. induction HF as [|a l Ha _ IH]; [reflexivity|]. cbn [map mapM].
    rewrite PackByteArray_ok by assumption. cbn [bind]. rewrite IH. reflexivity. }
  reflexivity.
Qed.

Lemma UnpackMultiple_packed hdr arrays fuel :
  len hdr = 4 -> (length arrays <= fuel)%nat -> Forall (fun a => len a < 2 ^ 31) arrays ->
  UnpackMultipleByteArrays fuel (hdr ++ concat (map packed arrays)) = Ok arrays.
Proof.
  intros Hh Hf HF. unfold UnpackMultipleByteArrays. rewrite <- Hh at 1.
  rewrite unpack_loop_packed by assumption. cbn [bind app].
  rewrite len_app, Z.eqb_refl. reflexivity.
Qed.
