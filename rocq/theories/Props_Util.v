(** * Props_Util: properties C01-C11 (util.py). *)
From Coq Require Import Strings.String.
From Coq Require Import List ZArith NArith Bool Lia ZifyBool ZifyNat ZifyN.
From Coq.Init Require Import Byte.
From Verif Require Import PyBase PyFacts Base64 Base64Facts Sha1 Util UtilFacts UtilFacts2.
Import ListNotations.
Local Open Scope Z_scope.
Ltac Zify.zify_post_hook ::= Z.div_mod_to_equations.

(** ** C01 *)
Theorem C01_base64_roundtrip : forall s : str, Base64WSDecode (Base64WSEncode s) = Ok s.
Proof. exact base64_roundtrip. Qed.
Print Assumptions C01_base64_roundtrip.

(** The same when the encoded text was stored as a JSON (unicode) string. *)
Theorem C01_base64_roundtrip_unicode :
  forall s : str, Base64WSDecode_u (text_of_str (Base64WSEncode s)) = Ok s.
Proof. exact base64_roundtrip_u. Qed.
Print Assumptions C01_base64_roundtrip_unicode.

(** ** C02 *)
(** Specification: the 64 URL-safe characters. *)
Definition url_alphabet : str :=
  bs "ABCDEFGHIJKLMNOPQRSTUVWXYZabcdefghijklmnopqrstuvwxyz0123456789-_".

Definition ceil_div (a b : Z) : Z := - ((- a) / b).

Lemma ws_char_alphabet v : in64 v -> In (ws_char v) url_alphabet.
Proof.
  intros H. pose (P := fun v => existsb (beqb (ws_char v)) url_alphabet).
  assert (P v = true) as E by (apply forall64; [vm_compute; reflexivity | assumption]).
  apply existsb_exists in E as (c & Hc & E). apply beqb_eq in E as ->. assumption.
Qed.

Theorem C02_base64_canonical :
  (forall s, Forall (fun c => In c url_alphabet) (Base64WSEncode s)) /\
  (forall s, len (Base64WSEncode s) = ceil_div (4 * len s) 3) /\
  (forall s t, Base64WSEncode s = Base64WSEncode t -> s = t).
Proof.
  split; [|split].
  - intros s. rewrite encode_six. pose proof (six_in64 s) as H.
    induction H as [|v l Hv _ IH]; constructor; [apply ws_char_alphabet; assumption | assumption].
  - intros s. rewrite len_encode. unfold ceil_div. lia.
  - exact encode_inj.
Qed.
Print Assumptions C02_base64_canonical.

Example C02_case : Base64WSEncode (bs "any carnal pleas>>?") = bs "YW55IGNhcm5hbCBwbGVhcz4-Pw".
Proof. vm_compute. reflexivity. Qed.

(** ** C03 *)
Definition whitespace (c : byte) : bool :=
  existsb (beqb c) [" "%byte; x0a; x0d].

Definition strip_ws (s : str) : str := filter (fun c => negb (whitespace c)) s.

Lemma strip_ws_eq s :
  filter (fun c => negb (is_space c)) (filter (fun c => negb (is_eol c)) s) = strip_ws s.
Proof.
  unfold strip_ws. induction s as [|c s IH]; [reflexivity|]. cbn [filter].
  unfold whitespace, is_eol, is_space in *. cbn [existsb].
  destruct (beqb c x0a); destruct (beqb c x0d); destruct (beqb c " "%byte) eqn:E;
    cbn [negb orb filter]; rewrite ?E; cbn [negb]; rewrite ?IH; reflexivity.
Qed.

Theorem C03_whitespace_ignored :
  forall s t, strip_ws s = strip_ws t -> Base64WSDecode s = Base64WSDecode t.
Proof. intros s t H. unfold Base64WSDecode. rewrite !strip_ws_eq, H. reflexivity. Qed.
Print Assumptions C03_whitespace_ignored.

Theorem C03_insert_whitespace :
  forall a b w, Forall (fun c => whitespace c = true) w ->
    Base64WSDecode (a ++ w ++ b) = Base64WSDecode (a ++ b).
Proof.
  intros a b w H. apply C03_whitespace_ignored. unfold strip_ws. rewrite !filter_app.
  replace (filter _ w) with (@nil byte); [reflexivity|].
  induction H as [|c w Hc _ IH]; [reflexivity|]. cbn [filter]. rewrite Hc. exact IH.
Qed.
Print Assumptions C03_insert_whitespace.

(** Encoded text that was reflowed (line breaks, indentation) still decodes. *)
Theorem C03_reflowed_text :
  forall s t, strip_ws t = Base64WSEncode s -> Base64WSDecode t = Ok s.
Proof.
  intros s t H. rewrite <- (base64_roundtrip s). apply C03_whitespace_ignored.
  rewrite H. rewrite <- (strip_ws_eq (Base64WSEncode s)). rewrite encode_no_ws. reflexivity.
Qed.
Print Assumptions C03_reflowed_text.

Example C03_case :
  Base64WSDecode (bs "YW 55IGNh" ++ [x0d; x0a] ++ bs "cm5h bA") = Ok (bs "any carnal").
Proof. vm_compute. reflexivity. Qed.

(** ** C04 *)
(** The property as stated is false: foreign characters are silently skipped. *)
Theorem C04_reject_foreign_refuted :
  exists s r, Exists (fun c => ~ In c (url_alphabet ++ bs "+/= " ++ [x0a; x0d])) s /\
              Base64WSDecode s = Ok r /\ Base64WSDecode (Base64WSEncode r) = Ok r /\
              strip_ws s <> Base64WSEncode r.
Proof.
  exists (bs "YWJj!!!!"), (bs "abc"). split; [|split; [|split]].
  - do 4 apply Exists_cons_tl. apply Exists_cons_hd. intros H.
    assert (existsb (beqb "!"%byte) (url_alphabet ++ bs "+/= " ++ [x0a; x0d]) = true) as C.
    { apply existsb_exists. exists "!"%byte. split; [assumption | reflexivity]. }
    vm_compute in C. discriminate.
  - vm_compute. reflexivity.
  - vm_compute. reflexivity.
  - vm_compute. discriminate.
Qed.
Print Assumptions C04_reject_foreign_refuted.

(** What does hold.  Length 1 mod 4 is always refused, no other exception escapes, and for
    text without '=' acceptance is decided exactly by the number of characters [n]
    (without whitespace) and the number of alphabet characters [m] among them. *)
Definition alphabet_char (c : byte) : bool :=
  existsb (beqb c) (url_alphabet ++ bs "+/").

Definition accepted_counts (n m : Z) : Prop :=
  n mod 4 <> 1 /\
  (m mod 4 = 0 \/ (m mod 4 = 2 /\ n mod 4 = 2) \/ (m mod 4 = 3 /\ (n mod 4 = 2 \/ n mod 4 = 3))).

Lemma values_count s : pad_free s -> len (values s) = len (filter alphabet_char s).
Proof.
  unfold values. induction 1 as [|c s Hc _ IH]; [reflexivity|].
  cbn [map vals filter].
  assert (A : forall c, beqb c "="%byte = false ->
     match b64_val (of_urlsafe c) with Some _ => true | None => false end = alphabet_char c).
  { intros d Hd.
    pose (P := fun d => beqb d "="%byte ||
      Bool.eqb (match b64_val (of_urlsafe d) with Some _ => true | None => false end) (alphabet_char d)).
    assert (P d = true) as E by (apply forall_bytes; vm_compute; reflexivity).
    unfold P in E. rewrite Hd in E. cbn [orb] in E. apply eqb_prop. exact E. }
  specialize (A c Hc). destruct (b64_val (of_urlsafe c)); rewrite <- A; [rewrite !len_cons|]; lia.
Qed.

Theorem C04_decode_rejection_partial :
  (forall s, len (strip_ws s) mod 4 = 1 -> Base64WSDecode s = Raise Base64DecodingError) /\
  (forall s e, Base64WSDecode s = Raise e -> e = Base64DecodingError) /\
  (forall s, ~ In "="%byte s ->
     ((exists r, Base64WSDecode s = Ok r) <->
      accepted_counts (len (strip_ws s)) (len (filter alphabet_char (strip_ws s))))).
Proof.
  split; [|split].
  - intros s H. unfold Base64WSDecode. rewrite strip_ws_eq. unfold decode_stripped.
    rewrite H. reflexivity.
  - intros s e H. unfold Base64WSDecode in H. apply decode_stripped_exn in H. assumption.
  - intros s H. unfold Base64WSDecode. rewrite strip_ws_eq.
    assert (HP : pad_free (strip_ws s)).
    { apply Forall_forall. intros c Hc. unfold strip_ws in Hc. apply filter_In in Hc as [Hc _].
      apply beqb_neq. intros ->. contradiction. }
    rewrite decode_stripped_char by assumption. rewrite values_count by assumption.
    set (n := len (strip_ws s)). set (m := len (filter alphabet_char (strip_ws s))).
    unfold accepted_counts, accepts. cbv zeta.
    destruct (negb (n mod 4 =? 1) &&
        ((m mod 4 =? 0) || (m mod 4 =? 2) && (n mod 4 =? 2)
         || (m mod 4 =? 3) && ((n mod 4 =? 2) || (n mod 4 =? 3)))) eqn:E.
    + split; [intros _; lia | eauto].
    + split; [intros [r C]; discriminate | intros C; exfalso; lia].
Qed.
Print Assumptions C04_decode_rejection_partial.

(** Decoding is not injective even on the alphabet alone: the unused low bits of the
    last character are ignored. *)
Theorem C04_distinct_texts_refuted :
  exists s t r, Forall (fun c => In c url_alphabet) s /\ Forall (fun c => In c url_alphabet) t /\
    s <> t /\ Base64WSDecode s = Ok r /\ Base64WSDecode t = Ok r.
Proof.
  exists (bs "QQ"), (bs "QR"), (bs "A").
  assert (A : forall c, existsb (beqb c) url_alphabet = true -> In c url_alphabet).
  { intros c H. apply existsb_exists in H as (d & Hd & E). apply beqb_eq in E as ->. assumption. }
  split; [|split; [|split; [|split]]]; try (vm_compute; reflexivity).
  - repeat constructor; apply A; vm_compute; reflexivity.
  - repeat constructor; apply A; vm_compute; reflexivity.
  - vm_compute. discriminate.
Qed.
Print Assumptions C04_distinct_texts_refuted.

(** ** C05 *)
(** Specification: the integer a byte string denotes in base 256, most significant first. *)
Fixpoint base256 (s : str) : Z :=
  match s with
  | [] => 0
  | b :: s' => ord b * 256 ^ len s' + base256 s'
  end.

Lemma base256_val s : base256 s = be_val s.
Proof. induction s as [|b s IH]; [reflexivity|]. rewrite be_val_cons. cbn [base256]. lia. Qed.

Theorem C05_big_endian :
  (forall s, BytesToLong s = base256 s) /\
  (forall n, 0 <= n -> BytesToLong (BigIntToBytes n) = n) /\
  (forall s, exists zeros, s = zeros ++ BigIntToBytes (BytesToLong s) /\
                           Forall (fun b => b = x00) zeros /\
                           hd_error (BigIntToBytes (BytesToLong s)) <> Some x00) /\
  (forall s n, BytesToLong (PadBytes s n) = BytesToLong s) /\
  (forall s, BytesToLong (TrimBytes s) = BytesToLong s) /\
  (forall n, len (IntToBytes n) = 4 /\ BytesToLong (IntToBytes n) = n mod 2 ^ 32).
Proof.
  repeat split.
  - intros s. rewrite BytesToLong_val, base256_val. reflexivity.
  - intros n H. rewrite BytesToLong_val. apply BigIntToBytes_val. assumption.
  - intros s. rewrite BigIntToBytes_BytesToLong. destruct (lstrip_decomp x00 s) as [n E].
    exists (repeat x00 n). split; [assumption|]. split.
    + apply Forall_forall. intros b Hb. apply repeat_spec in Hb. assumption.
    + pose proof (lstrip_head x00 s) as H. destruct (lstrip x00 s); cbn [hd_error]; congruence.
  - intros s n. rewrite !BytesToLong_val. apply PadBytes_val.
  - intros s. rewrite !BytesToLong_val. apply TrimBytes_val.
  - rewrite BytesToLong_val. apply IntToBytes_val.
Qed.
Print Assumptions C05_big_endian.

(** TrimBytes: never empty, no leading zero unless it is the single zero byte. *)
Theorem C05_trim :
  forall s, TrimBytes s = [x00] \/
            (exists b t, TrimBytes s = b :: t /\ b <> x00).
Proof.
  intros s. unfold TrimBytes. rewrite chr0. cbv zeta.
  pose proof (lstrip_head x00 s) as H. destruct (lstrip x00 s) as [|b t].
  - left. reflexivity.
  - right. exists b, t. split; [reflexivity | assumption].
Qed.
Print Assumptions C05_trim.

Example C05_case : BigIntToBytes 65536 = [x01; x00; x00] /\ BytesToLong [x00; x01; x02] = 258.
Proof. split; vm_compute; reflexivity. Qed.

(** ** C06 *)
Theorem C06_bits :
  (forall s, BinToBytes (BytesToBin s) = Ok s) /\
  (forall s, len (BytesToBin s) = 8 * len s) /\
  (forall n, 0 <= n -> int_base2 (IntToBin n) = Ok n /\
                       (n <> 0 -> hd_error (IntToBin n) = Some "1"%byte)).
Proof.
  split; [exact BinToBytes_BytesToBin|]. split; [exact len_BytesToBin|].
  intros n H. destruct (IntToBin_val n H) as (V & c & s & E & H1 & _).
  split; [assumption|]. intros N. rewrite E. cbn [hd_error]. rewrite H1 by assumption. reflexivity.
Qed.
Print Assumptions C06_bits.

Example C06_case : IntToBin 10 = bs "1010" /\ BytesToBin [x05] = bs "00000101".
Proof. split; vm_compute; reflexivity. Qed.

(** ** C07 *)
Theorem C07_pack_unpack_in_context :
  forall pre a post p, PackByteArray (Some a) = Ok p ->
    UnpackByteArray (pre ++ p ++ post) (len pre) = Ok (a, len (pre ++ p)).
Proof.
  intros pre a post p H. apply PackByteArray_inv in H as [H ->].
  rewrite UnpackByteArray_at by assumption. rewrite !len_app, len_IntToBytes.
  rewrite Z.add_assoc. reflexivity.
Qed.
Print Assumptions C07_pack_unpack_in_context.

Theorem C07_pack_multiple_roundtrip :
  forall arrays p, PackMultipleByteArrays (map Some arrays) = Ok p ->
    exists fuel, forall k, (fuel <= k)%nat -> UnpackMultipleByteArrays k p = Ok arrays.
Proof.
  intros arrays p H. exists (length arrays). intros k Hk.
  assert (HF : Forall (fun a => len a < 2 ^ 31) arrays /\ len arrays < 2 ^ 31).
  { unfold PackMultipleByteArrays in H. inv_bind.
    split.
    - apply mapM_Ok_Forall2 in E0. clear -E0. remember (map Some arrays) as l.
      revert arrays Heql. induction E0 as [|x y l l' Hxy _ IH]; intros [|a arrays] Hl;
        try discriminate; constructor; cbn [map] in Hl; injection Hl as -> Hl.
      + apply PackByteArray_inv in Hxy. apply Hxy.
      + apply IH. assumption.
    - rewrite len_map in E. destruct (Z.lt_ge_cases (len arrays) (2 ^ 31)); [assumption|].
      rewrite struct_pack_err in E by lia. discriminate. }
  destruct HF as [HF HN]. rewrite PackMultiple_ok in H by assumption. apply Ok_inj in H as <-.
  apply UnpackMultiple_packed; [reflexivity | assumption | assumption].
Qed.
Print Assumptions C07_pack_multiple_roundtrip.

Theorem C07_pack_domain_and_injective :
  (forall a, (exists p, PackByteArray (Some a) = Ok p) <-> len a < 2 ^ 31) /\
  (forall a e, PackByteArray (Some a) = Raise e -> e = StructError) /\
  (forall a b p, PackByteArray (Some a) = Ok p -> PackByteArray (Some b) = Ok p -> a = b) /\
  (forall a b p, PackMultipleByteArrays (map Some a) = Ok p ->
                 PackMultipleByteArrays (map Some b) = Ok p -> a = b).
Proof.
  split; [|split; [|split]].
  - intros a. split.
    + intros [p H]. apply PackByteArray_inv in H. apply H.
    + intros H. eexists. apply PackByteArray_ok. assumption.
  - intros a e H. unfold PackByteArray in H. apply bind_Raise in H as [H | (h & _ & H)]; [|discriminate].
    unfold struct_pack_i in H. destruct (_ && _); congruence.
  - intros a b p Ha Hb. apply PackByteArray_inv in Ha as [La Ha], Hb as [Lb Hb].
    destruct (packed_inj a b [] [] La Lb) as [E _]; [|exact E].
    unfold packed. rewrite <- Ha, <- Hb. reflexivity.
  - intros a b p Ha Hb.
    destruct (C07_pack_multiple_roundtrip a p Ha) as [f Hf].
    destruct (C07_pack_multiple_roundtrip b p Hb) as [g Hg].
    specialize (Hf (f + g)%nat ltac:(lia)). specialize (Hg (f + g)%nat ltac:(lia)). congruence.
Qed.
Print Assumptions C07_pack_domain_and_injective.

Example C07_case :
  PackMultipleByteArrays [Some (bs "key"); Some []] =
    Ok ([x00; x00; x00; x02] ++ [x00; x00; x00; x03] ++ bs "key" ++ [x00; x00; x00; x00]).
Proof. vm_compute. reflexivity. Qed.

(** ** C08: refuted.  A length field of -4 keeps the read position where it is. *)
Definition looping_blob : str := [x00; x00; x00; x01; xff; xff; xff; xfc].

Theorem C08_unpack_terminates_refuted :
  exists data, forall fuel, UnpackMultipleByteArrays fuel data = Raise Diverge.
Proof.
  exists looping_blob. intros fuel. unfold UnpackMultipleByteArrays.
  assert (H : forall acc, unpack_loop fuel looping_blob 4 acc = Raise Diverge).
  { induction fuel as [|f IH]; intros acc; [reflexivity|]. cbn [unpack_loop].
    change (4 <? len looping_blob) with true. cbv iota.
    change (UnpackByteArray looping_blob 4) with (Ok (@nil byte, 4)). cbn [bind]. apply IH. }
  rewrite H. reflexivity.
Qed.
Print Assumptions C08_unpack_terminates_refuted.

(** Without length fields of -4 or less the loop ends after at most [len data] rounds,
    and only struct.error or AssertionError can be raised. *)
Theorem C08_unpack_terminates_partial :
  forall data,
    (forall off n, 4 <= off -> struct_unpack_i (slice data off (off + 4)) = Ok n -> -4 < n) ->
    exists r, (forall k, (length data <= k)%nat -> UnpackMultipleByteArrays k data = r) /\
              match r with Ok _ => True | Raise e => e = StructError \/ e = AssertionError end.
Proof.
  intros data HS.
  assert (HT : unpack_loop (length data) data 4 [] <> Raise Diverge).
  { apply unpack_loop_terminates; [exact HS | lia | unfold len; lia]. }
  exists (UnpackMultipleByteArrays (length data) data). split.
  - intros k Hk. unfold UnpackMultipleByteArrays.
    rewrite (unpack_loop_mono (length data)) by assumption. reflexivity.
  - unfold UnpackMultipleByteArrays.
    destruct (unpack_loop (length data) data 4 []) as [[l p]|e] eqn:E; cbn [bind].
    + destruct (p =? len data); [exact I | right; reflexivity].
    + apply unpack_loop_exn in E as E'. destruct E' as [-> | ->]; [left; reflexivity | contradiction].
Qed.
Print Assumptions C08_unpack_terminates_partial.

Example C08_case : UnpackMultipleByteArrays 3 [x00; x00; x00; x01; x00; x00; x00; x02; x41; x42]
  = Ok [[x41; x42]].
Proof. vm_compute. reflexivity. Qed.

(** ** C09 *)
Theorem C09_xor :
  (forall a b, len (Xor a b) = Z.max (len a) (len b)) /\
  (forall a b, Xor a b = Xor b a) /\
  (forall a b, len a = len b -> Xor (Xor a b) b = a) /\
  (forall a b n, 0 <= n -> len b = n + len a ->
     Xor a b = Xor (rep n x00 ++ a) b) /\
  (forall a b, len a = len b -> forall i x y,
     nth_error a i = Some x -> nth_error b i = Some y ->
     nth_error (Xor a b) i = Some (chr (Z.lxor (ord x) (ord y)))).
Proof.
  split; [exact len_Xor|]. split; [exact Xor_comm|]. split; [exact Xor_cancel|]. split.
  - intros a b n Hn H. pose proof (len_nonneg a). rewrite Xor_left_pad by lia.
    rewrite Xor_same by (rewrite len_app, len_rep; lia).
    do 3 f_equal. lia.
  - intros a b H i x y Ha Hb. rewrite Xor_same by assumption. unfold xorl.
    clear H. revert b i Ha Hb. induction a as [|a0 a IH]; intros [|b0 b] [|i] Ha Hb;
      cbn in *; try discriminate.
    + injection Ha as ->. injection Hb as ->. reflexivity.
    + apply IH; assumption.
Qed.
Print Assumptions C09_xor.

Example C09_case : Xor [x0f] [x10; x01] = [x10; x0e].
Proof. vm_compute. reflexivity. Qed.

(** ** C10 *)
(** Specification (RFC 3447, B.2.1): byte [i] of the mask is byte [i mod 20] of
    SHA1(seed || C) where C is the 4-byte big-endian counter [i / 20]. *)
Definition counter (n : Z) : str := [chr (n / 2 ^ 24); chr (n / 2 ^ 16); chr (n / 2 ^ 8); chr n].

Theorem C10_mgf1 :
  (forall seed n, 0 <= n <= 2 ^ 32 * 20 -> exists m, MGF seed n = Ok m) /\
  (forall seed n, 2 ^ 32 * 20 < n -> MGF seed n = Raise KeyczarError) /\
  (forall seed n m, 0 <= n -> MGF seed n = Ok m -> len m = n) /\
  (forall seed n m i, 0 <= n -> MGF seed n = Ok m -> (i < Z.to_nat n)%nat ->
     nth_error m i = nth_error (sha1 (seed ++ counter (Z.of_nat (i / 20)))) (i mod 20)) /\
  (forall seed n n' m m', 0 <= n <= n' -> MGF seed n = Ok m -> MGF seed n' = Ok m' ->
     m = firstn (Z.to_nat n) m').
Proof.
  split; [|split; [|split; [|split]]].
  - intros seed n H. eexists. apply MGF_ok. assumption.
  - intros seed n H. unfold MGF, HLEN. apply Z.ltb_lt in H. rewrite H. reflexivity.
  - exact MGF_len.
  - intros seed n m i Hn E Hi. rewrite (MGF_nth seed n m i Hn E Hi). unfold Hash.
    cbn [concat]. rewrite app_nil_r. do 3 f_equal.
    unfold IntToBytes, counter. rewrite !Z.shiftr_div_pow2 by lia. rewrite !chr_mod. reflexivity.
  - intros seed n n' m m' H E E'.
    apply (MGF_any seed n (Z.to_nat n')) in E; [|lia|lia].
    apply (MGF_any seed n' (Z.to_nat n')) in E'; [|lia|lia]. subst.
    rewrite firstn_firstn. f_equal. lia.
Qed.
Print Assumptions C10_mgf1.

Example C10_case : exists m, MGF (bs "seed") 41 = Ok m /\ len m = 41.
Proof.
  destruct C10_mgf1 as (H & _ & L & _). destruct (H (bs "seed") 41) as [m E]; [lia|].
  exists m. split; [exact E|]. apply (L (bs "seed")); [lia | exact E].
Qed.

(** ** C11 *)
(** Specification (RFC 3447, 9.2): DigestInfo for SHA-1 and the padded block.  The leading
    zero byte is left out, as in the source. *)
Definition digest_info (h : str) : str :=
  [x30; x21; x30; x09; x06; x05; x2b; x0e; x03; x02; x1a; x05; x00; x04; x14] ++ h.

Definition emsa (size_bytes : Z) (h : str) : str :=
  [x01] ++ rep (size_bytes - 3 - len (digest_info h)) xff ++ [x00] ++ digest_info h.

Definition rsa_sizes : list Z := [512; 768; 1024; 2048; 4096].

Theorem C11_emsa :
  (forall msg size, MakeEmsaMessage msg size = emsa (size / 8) (sha1 msg)) /\
  (forall msg size, In size rsa_sizes -> len (MakeEmsaMessage msg size) = size / 8 - 1) /\
  (forall m1 m2 size, MakeEmsaMessage m1 size = MakeEmsaMessage m2 size -> sha1 m1 = sha1 m2).
Proof.
  split; [|split].
  - intros msg size. unfold MakeEmsaMessage, emsa, digest_info, Hash. cbn [concat].
    rewrite app_nil_r. cbv zeta.
    change magic_sha1_header with
      [x30; x21; x30; x09; x06; x05; x2b; x0e; x03; x02; x1a; x05; x00; x04; x14].
    change (chr 1) with x01. change (chr 0) with x00. change (chr 255) with xff.
    do 3 f_equal. lia.
  - intros msg size H. apply len_Emsa. unfold rsa_sizes in H. cbn [In] in H.
    destruct H as [<- | [<- | [<- | [<- | [<- | []]]]]]; vm_compute; discriminate.
  - intros m1 m2 size H. unfold MakeEmsaMessage in H. cbv zeta in H.
    rewrite !app_assoc in H. apply app_inv_len_r in H as [_ H]; [|reflexivity].
    unfold Hash in H. cbn [concat] in H. rewrite !app_nil_r in H. assumption.
Qed.
Print Assumptions C11_emsa.

Example C11_case : In 2048 rsa_sizes /\ len (MakeEmsaMessage (bs "m") 2048) = 255.
Proof.
  split; [vm_compute; tauto|]. destruct C11_emsa as (_ & H & _).
  rewrite H by (vm_compute; tauto). reflexivity.
Qed.
