(** * StreamFacts: proofs about the streaming classes. *)
From Coq Require Import Strings.String.
From Coq Require Import List ZArith NArith Bool Lia ZifyBool ZifyNat ZifyN.
From Coq.Init Require Import Byte.
From Verif Require Import PyBase PyFacts Base64 Base64Facts Sha1 Util UtilFacts UtilFacts2 Aes AesFacts Json KeyInfo SymKeys SymFacts AsymKeys Keys KeyData Keyczar Streams.
Import ListNotations.
Local Open Scope Z_scope.
Ltac Zify.zify_post_hook ::= Z.div_mod_to_equations.

(** ** Base64 in pieces *)

Lemma six_app a b : len a mod 3 = 0 -> six (a ++ b) = six a ++ six b.
Proof.
  induction a as [|x|x y|x y z a IH] using ind3; intros H; try reflexivity; try discriminate H.
  cbn [app six]. rewrite IH; [reflexivity|]. rewrite !len_cons in H. pose proof (len_nonneg a). lia.
Qed.

Lemma encode_app a b : len a mod 3 = 0 -> Base64WSEncode (a ++ b) = Base64WSEncode a ++ Base64WSEncode b.
Proof. intros H. rewrite !encode_six, six_app, map_app by exact H. reflexivity. Qed.

Lemma encode_nil_iff s : Base64WSEncode s = [] <-> s = [].
Proof.
  split; [|intros ->; reflexivity]. intros H. apply (f_equal len) in H. rewrite len_encode in H.
  apply len_0_nil. pose proof (len_nonneg s). change (len (@nil byte)) with 0 in H. lia.
Qed.

(** The Base64 writer: the text written and the buffer determine each other. *)
Definition bw_holds (w : b64writer) (s : str) : Prop :=
  exists a, s = a ++ bw_buffer w /\ len a mod 3 = 0 /\ bw_out w = Base64WSEncode a.

Lemma bw_new_holds : bw_holds bw_new [].
Proof. exists []. repeat split. Qed.

Lemma bw_write_holds w s d : bw_holds w s -> bw_holds (bw_write w d) (s ++ d).
Proof.
  intros (a & -> & HA & HO). unfold bw_write, encoder_encode, buffer_encode. set (data := bw_buffer w ++ d).
  set (n := 3 * (len data / 3)). pose proof (len_nonneg data).
  exists (a ++ slice_to data n). cbn [bw_buffer bw_out]. rewrite <- !app_assoc, slice_to_from.
  split; [reflexivity|]. assert (L : len (slice_to data n) = n) by (apply len_slice_to; unfold n; lia).
  split; [rewrite len_app, L; unfold n; lia|]. rewrite HO, encode_app by exact HA. reflexivity.
Qed.

Lemma bw_buffer_small w d : len (bw_buffer (bw_write w d)) < 3.
Proof.
  unfold bw_write, encoder_encode, buffer_encode. cbn [bw_buffer]. set (data := bw_buffer w ++ d).
  pose proof (len_nonneg data). rewrite len_slice_from by lia. lia.
Qed.

Lemma bw_flush_out w s : bw_holds w s -> bw_out (bw_flush w) = Base64WSEncode s /\ bw_buffer (bw_flush w) = [].
Proof.
  intros (a & -> & HA & HO). unfold bw_flush, encoder_flush, buffer_encode.
  destruct (bw_buffer w) as [|x b] eqn:E.
  - cbn [bw_out bw_buffer]. rewrite HO, app_nil_r. split; reflexivity.
  - cbn [fst bw_out bw_buffer]. rewrite slice_to_all by lia. rewrite encode_app, HO by exact HA.
    destruct (Base64WSEncode (x :: b)) eqn:E2; [apply (proj1 (encode_nil_iff _)) in E2; discriminate|]. split; reflexivity.
Qed.

(** ** The encrypting writer *)

(** What a sink stands for: the raw bytes written to it so far. *)
Definition sink_holds (s : sink) (raw : str) : Prop :=
  match s with RawSink o => o = raw | B64Sink w => bw_holds w raw end.

Lemma sink_write_holds s raw d : sink_holds s raw -> sink_holds (sink_write s d) (raw ++ d).
Proof. destruct s; cbn [sink_holds sink_write]; [intros ->; reflexivity | apply bw_write_holds]. Qed.

Definition encoded (b64 : bool) (s : str) : str := if b64 then Base64WSEncode s else s.
Definition is_b64 (s : sink) : bool := match s with RawSink _ => false | B64Sink _ => true end.

Lemma sink_flush_out s raw : sink_holds s raw -> sink_out (sink_flush s) = encoded (is_b64 s) raw.
Proof. destruct s; cbn [sink_holds sink_flush sink_out is_b64 encoded]; [intros ->; reflexivity | intros H; apply bw_flush_out, H]. Qed.

Lemma is_b64_write s d : is_b64 (sink_write s d) = is_b64 s.
Proof. destruct s; reflexivity. Qed.

(** The state of a writer that has been given the data [p], with header [hdr] and IV [iv] under
    the key bytes [kb] and [hb]. *)
Record ew_at (w : esw) (b64 : bool) (kb hb hdr iv p : str) : Prop := {
  ewa_open : ew_closed w = false;
  ewa_b64 : is_b64 (ew_sink w) = b64;
  ewa_split : exists q body, p = q ++ ew_data w /\ len q mod 16 = 0 /\ len (ew_data w) < 16 /\
    cipher_encrypt (MkCipher (key_schedule kb) iv) q = Ok (body, ew_cipher w) /\
    ew_hmac w = MkHs hb (hdr ++ iv ++ body) /\ sink_holds (ew_sink w) (hdr ++ iv ++ body) }.

Lemma EncryptingStreamWriter_at a kb hb r s : aes_material a kb hb -> aes_size_ok kb -> sink_holds s [] ->
  exists hdr w, aes_header a = Ok hdr /\ EncryptingStreamWriter (KAes a) r s = Ok w /\ ew_at w (is_b64 s) kb hb hdr (RandBytes r 16) [].
Proof.
  intros HM HS HK. destruct (aes_header_ok a kb hb HM) as (id & EH & _). destruct HM as [Hk Hh].
  eexists (x00 :: id), _. split; [exact EH|]. unfold EncryptingStreamWriter, CreateStreamable. rewrite Hk, Hh, EH. cbn [bind].
  unfold block_size. rewrite (AES_new_iff kb (RandBytes r 16) HS) by (apply len_RandBytes; lia). cbn [bind].
  split; [reflexivity|]. constructor; cbn [ew_closed ew_sink ew_data ew_cipher ew_hmac].
  - reflexivity.
  - apply is_b64_write.
  - exists [], []. rewrite cipher_encrypt_nil, app_nil_r. repeat split; try reflexivity.
    apply (sink_write_holds s [] _ HK).
Qed.

Lemma set_data_at w b64 kb hb hdr iv q body d :
  ew_closed w = false -> is_b64 (ew_sink w) = b64 -> len q mod 16 = 0 -> len d < 16 ->
  cipher_encrypt (MkCipher (key_schedule kb) iv) q = Ok (body, ew_cipher w) ->
  ew_hmac w = MkHs hb (hdr ++ iv ++ body) -> sink_holds (ew_sink w) (hdr ++ iv ++ body) ->
  ew_at (set_data w d) b64 kb hb hdr iv (q ++ d).
Proof.
  intros H1 H2 H3 H4 H5 H6 H7. constructor; cbn [set_data ew_closed ew_sink ew_data ew_cipher ew_hmac]; try assumption.
  exists q, body. repeat split; assumption.
Qed.

Lemma ew_write_at w b64 kb hb hdr iv p d : aes_size_ok kb -> len iv = 16 -> ew_at w b64 kb hb hdr iv p ->
  exists w', ew_write w d = (w', Ok tt) /\ ew_at w' b64 kb hb hdr iv (p ++ d).
Proof.
  intros HS HI [HO HB (q & body & -> & HQ & HD & HC & HH & HK)]. unfold ew_write. rewrite HO.
  change (ew_data (set_data w (ew_data w ++ d))) with (ew_data w ++ d). rewrite <- app_assoc.
  set (data := ew_data w ++ d). pose proof (len_nonneg data) as HL. unfold NoPadBufferSize, block_size.
  set (n := Z.max (16 * (len data / 16)) 16).
  destruct (n <=? len data) eqn:E.
  - assert (N : n = 16 * (len data / 16)) by lia.
    assert (L1 : len (slice_to data n) = n) by (apply len_slice_to; lia).
    assert (L2 : len (slice_from data n) = len data - n) by (apply len_slice_from; lia).
    pose proof (AES_new_ok kb iv _ (AES_new_iff kb iv HS HI)) as HOK0.
    destruct (cipher_encrypt_ok _ q HOK0 HQ) as (b0 & c0 & EE & HOK & _). rewrite HC in EE. apply Ok_inj, pair_inj in EE as [_ <-].
    assert (M1 : len (slice_to data n) mod 16 = 0) by lia.
    destruct (cipher_encrypt_ok _ (slice_to data n) HOK M1) as (out & c' & EO & _).
    unfold WriteEncrypted, set_data. cbn [ew_cipher ew_hmac ew_data ew_closed ew_sink]. rewrite EO.
    eexists. split; [reflexivity|].
    pose proof (sink_write_holds _ _ out HK) as HK2. rewrite <- !app_assoc in HK2.
    assert (EP : q ++ data = (q ++ slice_to data n) ++ slice_from data n) by (rewrite <- app_assoc, slice_to_from; reflexivity).
    rewrite EP. constructor; cbn [ew_cipher ew_hmac ew_data ew_closed ew_sink].
    + exact HO.
    + rewrite is_b64_write. exact HB.
    + exists (q ++ slice_to data n), (body ++ out). split; [reflexivity|]. split; [rewrite len_app; lia|]. split; [lia|].
      split; [rewrite cipher_encrypt_app by assumption; rewrite HC; cbn [bind]; rewrite EO; reflexivity|].
      split; [rewrite HH; unfold hs_update; cbn [hs_key hs_data]; rewrite <- !app_assoc; reflexivity | exact HK2].
  - eexists. split; [reflexivity|]. rewrite slice_from_0.
    apply (set_data_at (set_data w data) b64 kb hb hdr iv q body data HO HB HQ); try assumption. lia.
Qed.

Lemma aes_body_app kb iv q d body c : aes_size_ok kb -> len iv = 16 -> len q mod 16 = 0 ->
  cipher_encrypt (MkCipher (key_schedule kb) iv) q = Ok (body, c) ->
  exists out c', cipher_encrypt c (Pad d) = Ok (out, c') /\ aes_body kb iv (q ++ d) = body ++ out.
Proof.
  intros HS HI HQ HC.
  pose proof (AES_new_ok kb iv _ (AES_new_iff kb iv HS HI)) as HOK0.
  destruct (cipher_encrypt_ok _ q HOK0 HQ) as (b0 & c0 & EE & HOK & _). rewrite HC in EE. apply Ok_inj, pair_inj in EE as [_ <-].
  assert (M : len (Pad d) mod 16 = 0) by (rewrite len_Pad; pose proof (len_nonneg d); lia).
  destruct (cipher_encrypt_ok _ (Pad d) HOK M) as (out & c' & EO & _). exists out, c'. split; [exact EO|].
  assert (EP : Pad (q ++ d) = q ++ Pad d).
  { unfold Pad, block_size. rewrite <- app_assoc. f_equal. f_equal. rewrite len_app.
    replace ((len q + len d) mod 16) with (len d mod 16) by (pose proof (len_nonneg q); pose proof (len_nonneg d); lia). reflexivity. }
  pose proof (cipher_encrypt_app (MkCipher (key_schedule kb) iv) q (Pad d) HQ M) as EA. rewrite HC in EA. cbn [bind] in EA. rewrite EO in EA. cbn [bind] in EA.
  unfold aes_body. rewrite EP. unfold cipher_encrypt in EA. cbn [c_keys c_iv] in EA.
  destruct (_ =? 0); [|discriminate]. destruct (cbc_enc _ _ _ _) as [x y]. cbn [fst]. congruence.
Qed.

(** Flushing completes the ciphertext: header, IV, body and tag. *)
Lemma ew_flush_at w b64 kb hb hdr iv p : aes_size_ok kb -> len iv = 16 -> ew_at w b64 kb hb hdr iv p ->
  let m := hdr ++ iv ++ aes_body kb iv p in
  exists w', ew_flush w = (w', Ok tt) /\ ew_out w' = encoded b64 (m ++ hmac_sha1 hb m) /\ ew_closed w' = false.
Proof.
  intros HS HI [HO HB (q & body & -> & HQ & HD & HC & HH & HK)] m. unfold ew_flush. rewrite HO. unfold WriteEncrypted.
  destruct (aes_body_app kb iv q (ew_data w) body _ HS HI HQ HC) as (out & c' & EO & EB). rewrite EO.
  eexists. split; [reflexivity|]. unfold ew_out. cbn [ew_sink ew_hmac ew_closed]. rewrite HH. unfold hs_update, hs_sign. cbn [hs_key hs_data].
  assert (EM : (hdr ++ iv ++ body) ++ out = m) by (unfold m; rewrite EB, <- !app_assoc; reflexivity). rewrite EM.
  split; [|exact HO].
  rewrite (sink_flush_out _ (m ++ hmac_sha1 hb m)), !is_b64_write, HB; [reflexivity|].
  apply sink_write_holds. rewrite <- EM. apply sink_write_holds, HK.
Qed.

(** ** Input streams *)

(** [feeds rd P k]: a stream state related by [P] to the content [t] still to come and a number
    [m] bounding how often it can still say "no data yet"; a read delivers a piece of [t], not
    empty unless [t] is, of at most [k] times the size asked for. *)
Definition feeds {St} (rd : source St) (P : St -> str -> nat -> Prop) (k : Z) : Prop :=
  forall s t m size, P s t m -> size <> 0 ->
    (exists s' m', rd s size = (Ok None, s') /\ P s' t m' /\ (m' < m)%nat) \/
    (exists d t' s' m', rd s size = (Ok (Some d), s') /\ t = d ++ t' /\ P s' t' m' /\ (m' <= m)%nat /\
       (d = [] -> t = []) /\ (0 < size -> len d <= k * size)).

Definition chan_at (c : channel) (t : str) (m : nat) : Prop := ch_rest c = t /\ length (ch_plan c) = m.

Lemma chan_feeds : feeds chan_read chan_at 1.
Proof.
  intros c t m size [<- <-] HZ. unfold chan_read, chan_take. destruct (Z.eqb_spec size 0) as [|_]; [contradiction|].
  set (want := if size <? 0 then length (ch_rest c) else Z.to_nat size).
  assert (T : forall n plan, (n <= want)%nat -> (ch_rest c <> [] -> 0 < n)%nat -> (length plan <= length (ch_plan c))%nat ->
    exists d t' s' m', (Ok (Some (firstn n (ch_rest c))), MkChan plan (skipn n (ch_rest c))) = (Ok (Some d), s') /\
      ch_rest c = d ++ t' /\ chan_at s' t' m' /\ (m' <= length (ch_plan c))%nat /\ (d = [] -> ch_rest c = []) /\ (0 < size -> len d <= 1 * size)).
  { intros n plan Hn Hp Hl. exists (firstn n (ch_rest c)), (skipn n (ch_rest c)), (MkChan plan (skipn n (ch_rest c))), (length plan).
    split; [reflexivity|]. split; [symmetry; apply firstn_skipn|]. split; [split; reflexivity|]. split; [exact Hl|]. split.
    - intros E. destruct (ch_rest c) as [|x l]; [reflexivity|]. destruct n; [|discriminate E]. specialize (Hp ltac:(discriminate)). lia.
    - intros H0. unfold len. rewrite firstn_length. unfold want in Hn. destruct (size <? 0) eqn:E; lia. }
  destruct (ch_plan c) as [|[n|] plan] eqn:EP.
  - right. apply T; [lia | | cbn; lia]. intros HN. unfold want. destruct (ch_rest c); [contradiction|]. destruct (size <? 0) eqn:E; cbn [length]; lia.
  - right. apply T; [lia | | cbn [length]; lia]. intros HN. unfold want. destruct (ch_rest c); [contradiction|]. destruct (size <? 0) eqn:E; cbn [length]; lia.
  - left. exists (MkChan plan (ch_rest c)), (length plan). split; [reflexivity|]. split; [split; reflexivity | cbn [length]; lia].
Qed.

(** [__ReadBytes] over such a stream. *)
Lemma ReadBytes_feeds {St} (rd : source St) P k : feeds rd P k -> 0 <= k -> forall fuel s t m size block acc,
  P s t m -> len acc < size -> (m + length t < fuel)%nat ->
  exists d avail s' t' m', ReadBytes rd fuel s size block acc = (Ok (acc ++ d, avail), s') /\
    t = d ++ t' /\ P s' t' m' /\ (m' <= m)%nat /\
    (avail = false -> t' = [] /\ len (acc ++ d) < size) /\
    (avail = true -> size <= len (acc ++ d) \/ (block = false /\ (m' < m)%nat)) /\
    len (acc ++ d) < size + k * size.
Proof.
  intros HF HK0. induction fuel as [|fuel IH]; intros s t m size block acc HP HA HFu; [lia|].
  pose proof (len_nonneg acc) as HA0. assert (HKS : 0 <= k * size) by (apply Z.mul_nonneg_nonneg; lia).
  cbn [ReadBytes]. destruct (HF s t m size HP) as [(s1 & m1 & E & HP1 & HM)|(d & t1 & s1 & m1 & E & -> & HP1 & HM & HE & HC)]; [lia| |]; rewrite E.
  - destruct block; cbn [negb].
    + replace (len acc <? size) with true by lia.
      destruct (IH s1 t m1 size true acc HP1 HA) as (d & av & s' & t' & m' & E2 & -> & HP2 & HM2 & HR); [lia|].
      exists d, av, s', t', m'. split; [exact E2|]. split; [reflexivity|]. split; [exact HP2|]. split; [lia|].
      destruct HR as (R1 & R2 & R3). split; [exact R1|]. split; [|exact R3]. intros Hav. destruct (R2 Hav) as [|[]]; [left; assumption | discriminate].
    + exists [], true, s1, t, m1. rewrite app_nil_r. split; [reflexivity|]. split; [reflexivity|]. split; [exact HP1|]. split; [lia|].
      split; [discriminate|]. split; [right; split; [reflexivity | exact HM] | lia].
  - specialize (HC ltac:(lia)). destruct d as [|x d].
    + exists [], false, s1, t1, m1. rewrite app_nil_r. split; [reflexivity|]. split; [reflexivity|]. split; [exact HP1|]. split; [lia|].
      split; [intros _; split; [exact (HE eq_refl) | lia]|]. split; [discriminate | lia].
    + set (e := x :: d) in *. assert (LE : 0 < len e) by (unfold e; rewrite len_cons; pose proof (len_nonneg d); lia).
      destruct (len (acc ++ e) <? size) eqn:EL.
      * destruct (IH s1 t1 m1 size block (acc ++ e) HP1) as (d2 & av & s' & t' & m' & E2 & -> & HP2 & HM2 & HR); [lia| |].
        { rewrite app_length in HFu. unfold len in LE. lia. }
        exists (e ++ d2), av, s', t', m'. rewrite !app_assoc. split; [exact E2|]. split; [reflexivity|]. split; [exact HP2|]. split; [lia|].
        destruct HR as (R1 & R2 & R3). split; [exact R1|]. split; [|exact R3]. intros Hav. destruct (R2 Hav) as [|[]]; [left; assumption | right; split; [assumption | lia]].
      * exists e, true, s1, t1, m1. split; [reflexivity|]. split; [reflexivity|]. split; [exact HP1|]. split; [lia|].
        split; [discriminate|]. split; [left; lia|]. rewrite len_app in *. lia.
Qed.

(** The loop that waits for something to decrypt: [x] is what it read. *)
Lemma dr_fill_feeds {St} (rd : source St) P k fuel' : feeds rd P k -> 0 <= k -> forall fuel d s t m,
  P s t m -> (m + length t < fuel)%nat -> (m + length t < fuel')%nat ->
  exists x data avail s' t' m', dr_fill rd fuel' fuel d s = (Ok (data, avail), (set_enc d (dr_enc d ++ x), s')) /\
    t = x ++ t' /\ P s' t' m' /\ (m' <= m)%nat /\
    (avail = false -> t' = [] /\ data = slice_to (dr_enc d ++ x) (-20)) /\
    (avail = true -> data <> [] /\ len data mod 16 = 0 /\ exists keep, dr_enc d ++ x = data ++ keep /\ 36 <= len keep).
Proof.
  intros HF HK0. induction fuel as [|fuel IH]; intros d s t m HP HF1 HF2; [lia|].
  cbn [dr_fill]. destruct (ReadBytes_feeds rd P k HF HK0 fuel' s t m block_size false [] HP) as (x & avail & s1 & t1 & m1 & E & -> & HP1 & HM & R1 & R2 & _);
    [reflexivity | exact HF2|]. rewrite E. cbn [app] in *. cbn [set_enc dr_enc].
  set (buf := dr_enc d ++ x) in *. destruct avail; cbn [andb].
  - change (HLEN + block_size) with 36. change block_size with 16 in *. set (av := slice_to buf (Z.opp 36)).
    set (n := len av mod 16). pose proof (len_nonneg av) as HAV.
    set (data := if n =? 0 then av else slice_to av (- n)).
    assert (D : exists keep, buf = data ++ keep /\ (data = [] \/ 36 <= len keep) /\ len data mod 16 = 0).
    { unfold data. destruct (Z.eqb_spec n 0) as [EN|EN].
      - exists (slice_from buf (Z.opp 36)). split; [symmetry; apply slice_to_from|]. split; [|exact EN].
        destruct (Z.le_gt_cases 36 (len buf)) as [L|L].
        + right. rewrite slice_from_neg by lia. rewrite len_skipn; unfold len in *; lia.
        + left. unfold av. rewrite slice_to_neg by lia. replace (length buf - Z.to_nat 36)%nat with O by (unfold len in L; lia). reflexivity.
      - exists (slice_from av (- n) ++ slice_from buf (Z.opp 36)). rewrite app_assoc, slice_to_from. split; [symmetry; apply slice_to_from|].
        assert (L : 36 <= len buf).
        { destruct (Z.le_gt_cases 36 (len buf)); [assumption|]. exfalso. apply EN. unfold n, av. rewrite slice_to_neg by lia.
          replace (length buf - Z.to_nat 36)%nat with O by (unfold len in *; lia). reflexivity. }
        assert (LA : len av = len buf - 36) by (unfold av; rewrite slice_to_neg by lia; rewrite len_firstn; unfold len in *; lia).
        assert (0 < n <= len av) by (unfold n in *; lia).
        split; [right; rewrite len_app, (slice_from_neg buf) by lia; rewrite len_skipn by (unfold len in *; lia); pose proof (len_nonneg (slice_from av (- n))); unfold len in *; lia|].
        rewrite slice_to_neg by lia. rewrite len_firstn by (unfold len in *; lia). replace (Z.of_nat (length av - Z.to_nat n)) with (len av - n) by (unfold len in *; lia). unfold n. lia. }
    destruct (Z.eqb_spec (len data) 0) as [EL|EL].
    + destruct (IH (set_enc d buf) s1 t1 m1 HP1) as (x2 & data2 & av2 & s' & t' & m' & E2 & -> & HP2 & HM2 & Q1 & Q2).
      { rewrite app_length in HF1. destruct (R2 eq_refl) as [L|[_ L]]; [unfold len in L|]; lia. }
      { rewrite app_length in HF2. lia. }
      exists (x ++ x2), data2, av2, s', t', m'. rewrite E2. cbn [set_enc dr_enc dr_ks dr_key dr_hmac dr_cipher dr_dec dr_closed] in *. rewrite !app_assoc. fold buf.
      split; [reflexivity|]. split; [reflexivity|]. split; [exact HP2|]. split; [lia|]. split; assumption.
    + exists x, data, true, s1, t1, m1. split; [reflexivity|]. split; [reflexivity|]. split; [exact HP1|]. split; [lia|]. split; [discriminate|].
      intros _. assert (HN : data <> []) by (intros C; rewrite C in EL; apply EL; reflexivity). split; [exact HN|].
      destruct D as (keep & D1 & [D2|D2] & D3); [contradiction|]. split; [exact D3|]. exists keep. split; assumption.
  - change (0 =? 0) with true. cbv iota. exists x, (slice_to buf (- HLEN)), false, s1, t1, m1. split; [reflexivity|]. split; [reflexivity|]. split; [exact HP1|]. split; [lia|].
    split; [intros _; split; [apply R1; reflexivity | reflexivity] | discriminate].
Qed.

(** ** Delivering what was decrypted *)

(** What [read] returns when [r] is to be delivered. *)
Definition answer (r : str) (avail : bool) : option str :=
  match r with [] => if avail then None else Some [] | _ => Some r end.

Lemma dr_deliver_spec d chars avail : exists r rest,
  dr_deliver d chars avail = (answer r avail, set_dec d rest) /\ dr_dec d = r ++ rest /\
  (0 <= chars -> len r <= chars) /\ (chars <> 0 -> r = [] -> dr_dec d = []).
Proof.
  unfold dr_deliver. destruct (chars <? 0) eqn:E.
  - exists (dr_dec d), []. split; [reflexivity|]. split; [symmetry; apply app_nil_r|]. split; [lia|]. intros _ H. exact H.
  - exists (slice_to (dr_dec d) chars), (slice_from (dr_dec d) chars). split; [reflexivity|]. split; [symmetry; apply slice_to_from|].
    rewrite slice_to_firstn by lia. split; [intros _; unfold len; rewrite firstn_length; lia|].
    intros HC H. destruct (dr_dec d) as [|x l]; [reflexivity|]. destruct (Z.to_nat chars) eqn:EN; [lia | discriminate H].
Qed.

(** ** Reading a stream that starts with the header of a known AES key *)

(** [body ++ tag] is what the key would have written after [hdr ++ iv], up to the padding. *)
Definition authentic (hb hdr iv X : str) : Prop :=
  exists body tag, X = body ++ tag /\ len tag = 20 /\ len body mod 16 = 0 /\ tag = hmac_sha1 hb (hdr ++ iv ++ body).

(** The middle of the stream: the blocks [c] are decrypted, [out] was delivered. *)
Record mid {St} (P : St -> str -> nat -> Prop) (fuel : nat) (kb hb hdr iv X : str) (d : dsr) (s : St) (out : str) : Prop := {
  mid_open : dr_closed d = false;
  mid_key : exists a, dr_key d = Some (KAes a);
  mid_rest : exists c cst t m, dr_hmac d = Some (MkHs hb (hdr ++ iv ++ c)) /\ dr_cipher d = Some cst /\ cipher_ok cst /\
    X = c ++ dr_enc d ++ t /\ P s t m /\ (m + length t < fuel)%nat /\ len c mod 16 = 0 /\
    cipher_decrypt (MkCipher (key_schedule kb) iv) c = Ok (out ++ dr_dec d, cst) /\ 20 < len (dr_enc d ++ t) }.

(** The end: the tag was checked, and [out] and the buffer are all there is. *)
Record ended {St} (P : St -> str -> nat -> Prop) (fuel : nat) (kb hb hdr iv X : str) (d : dsr) (s : St) (out : str) : Prop := {
  end_open : dr_closed d = false;
  end_key : exists a, dr_key d = Some (KAes a);
  end_hmac : exists h, dr_hmac d = Some h;
  end_cipher : exists c, dr_cipher d = Some c;
  end_enc : dr_enc d = [];
  end_src : exists m, P s [] m /\ (m < fuel)%nat;
  end_auth : authentic hb hdr iv X;
  end_plain : exists c last tag p1 p2 u c1 c2, X = c ++ last ++ tag /\ len tag = 20 /\ len c mod 16 = 0 /\ len last mod 16 = 0 /\ last <> [] /\
    cipher_decrypt (MkCipher (key_schedule kb) iv) c = Ok (p1, c1) /\ cipher_decrypt c1 last = Ok (p2, c2) /\
    UnPad p2 = Ok u /\ out ++ dr_dec d = p1 ++ u }.

Definition at_or_end {St} (P : St -> str -> nat -> Prop) fuel kb hb hdr iv X d (s : St) out (avail : bool) : Prop :=
  if avail then mid P fuel kb hb hdr iv X d s out else ended P fuel kb hb hdr iv X d s out.

Lemma UnPad_ok p : p <> [] -> exists u n, UnPad p = Ok u /\ p = u ++ n.
Proof.
  intros H. destruct (exists_last H) as (l & x & ->). unfold UnPad. rewrite index_last. cbn [bind].
  eexists _, (slice_from (l ++ [x]) (- ord x)). split; [reflexivity|]. symmetry. apply slice_to_from.
Qed.

(** The exception for a stream that is not authentic. *)
Definition bad_exn (X : str) : exn := if (len X - 20) mod 16 =? 0 then InvalidSignatureError else ValueError.

(** All input was consumed and at most a tag is left. *)
Definition drained {St} (P : St -> str -> nat -> Prop) (fuel : nat) (d : dsr) (s : St) : Prop :=
  dr_closed d = false /\ (exists a, dr_key d = Some (KAes a)) /\ (exists h, dr_hmac d = Some h) /\ (exists c, dr_cipher d = Some c) /\
  len (dr_enc d) <= 20 /\ exists m, P s [] m /\ (m < fuel)%nat.

(** One round of waiting and decrypting in the middle of the stream. *)
Lemma dr_body_mid {St} (rd : source St) P k fuel kb hb hdr iv X d s out : feeds rd P k -> 0 <= k ->
  aes_size_ok kb -> len iv = 16 -> mid P fuel kb hb hdr iv X d s out ->
  (exists avail d' s', dr_body rd fuel d s = (Ok avail, (d', s')) /\ at_or_end P fuel kb hb hdr iv X d' s' out avail /\
     (avail = true -> dr_dec d' <> [])) \/
  (exists d' s', dr_body rd fuel d s = (Raise (bad_exn X), (d', s')) /\ ~ authentic hb hdr iv X /\ drained P fuel d' s' /\ dr_dec d' = dr_dec d).
Proof.
  intros HF HK0 HS HI [HO (a & HKey) (c & cst & t & m & HH & HC & HOK & -> & HP & HFu & HCM & HD & HL)].
  unfold dr_body. destruct (dr_fill_feeds rd P k fuel HF HK0 fuel d s t m HP HFu HFu) as (x & data & avail & s' & t' & m' & E & -> & HP' & HM & R1 & R2).
  rewrite E. destruct avail.
  - destruct (R2 eq_refl) as (HN & HM16 & keep & EK & LK). left.
    assert (LD : 0 < len data) by (pose proof (len_nonneg data); destruct data; [contradiction | rewrite len_cons; pose proof (len_nonneg data); lia]).
    replace (len data =? 0) with false by lia. cbn [set_enc dr_hmac dr_cipher]. rewrite HH, HC. unfold dr_consume.
    destruct (cipher_decrypt_ok cst data HOK HM16) as (out2 & c2 & ED & HOK2 & LO). rewrite ED.
    eexists true, _, s'. split; [reflexivity|].
    cbn [set_enc set_hmac set_cipher set_dec dr_ks dr_key dr_hmac dr_cipher dr_enc dr_dec dr_closed].
    rewrite EK, slice_from_app by reflexivity. split.
    + constructor; cbn [set_enc set_hmac set_cipher set_dec dr_ks dr_closed dr_key dr_hmac dr_cipher dr_enc dr_dec]; [exact HO | exists a; exact HKey|].
      exists (c ++ data), c2, t', m'. split; [unfold hs_update; cbn [hs_key hs_data]; rewrite <- !app_assoc; reflexivity|].
      split; [reflexivity|]. split; [exact HOK2|]. split; [rewrite (app_assoc (dr_enc d)), EK, <- !app_assoc; reflexivity|].
      split; [exact HP'|]. split; [rewrite app_length in HFu; lia|]. split; [rewrite len_app; lia|].
      split; [rewrite cipher_decrypt_app, HD by assumption; cbn [bind]; rewrite ED; cbn [bind]; rewrite <- app_assoc; reflexivity|].
      rewrite len_app. pose proof (len_nonneg t'). lia.
    + cbn [set_enc set_hmac set_cipher set_dec dr_dec]. intros _ C. apply app_eq_nil in C as [_ ->]. rewrite len_nil in LO. lia.
  - destruct (R1 eq_refl) as [-> ED]. rewrite app_nil_r in *.
    set (buf := dr_enc d ++ x) in *. change (-20) with (Z.opp 20) in ED.
    assert (LD : len data = len buf - 20) by (subst data; rewrite slice_to_neg by lia; rewrite len_firstn; unfold len in *; lia).
    replace (len data =? 0) with false by lia. cbn [set_enc dr_hmac dr_cipher]. rewrite HH, HC. unfold dr_consume.
    assert (EB : exists tag, buf = data ++ tag /\ len tag = 20).
    { exists (slice_from buf (Z.opp 20)). subst data. split; [symmetry; apply slice_to_from|]. rewrite slice_from_neg by lia. rewrite len_skipn; unfold len in *; lia. }
    destruct EB as (tag & EB & LT).
    assert (EX20 : (len (c ++ buf) - 20) mod 16 = len data mod 16) by (rewrite len_app; pose proof (len_nonneg c); lia).
    destruct (Z.eqb_spec (len data mod 16) 0) as [HM16|HM16].
    2:{ right. rewrite cipher_decrypt_bad by exact HM16. unfold bad_exn. rewrite EX20. replace (len data mod 16 =? 0) with false by lia.
        eexists _, _. split; [reflexivity|].
        split; [|cbn [set_enc set_hmac dr_ks dr_key dr_hmac dr_cipher dr_enc dr_dec dr_closed]; split; [|reflexivity]; unfold drained; cbn [set_enc set_hmac dr_ks dr_key dr_hmac dr_cipher dr_enc dr_dec dr_closed];
          split; [exact HO|]; split; [eauto|]; split; [eauto|]; split; [eauto|]; split; [rewrite EB, slice_from_app by reflexivity; lia | exists m'; split; [exact HP' | lia]]].
        intros (body & tag' & EA & LT' & M' & _). rewrite EB, app_assoc in EA. destruct (app_inv_len_r _ _ _ _ EA) as [<- _]; [lia|].
        rewrite len_app in M'. pose proof (len_nonneg c). pose proof (len_nonneg data). lia. }
    destruct (cipher_decrypt_ok cst data HOK HM16) as (out2 & c2 & ED2 & HOK2 & LO). rewrite ED2.
    cbn [set_enc set_hmac set_cipher set_dec dr_ks dr_key dr_hmac dr_cipher dr_enc dr_dec dr_closed].
    rewrite EB, slice_from_app by reflexivity. change HLEN with 20. rewrite LT. cbn [Z.eqb Pos.eqb negb].
    unfold hs_update, hs_sign. cbn [hs_key hs_data]. rewrite <- !app_assoc.
    destruct (VerifySignedData (hmac_sha1 hb (hdr ++ iv ++ c ++ data)) tag) eqn:EV; cbn [negb].
    + apply VerifySignedData_spec in EV.
      assert (HNE : out2 <> []) by (intros ->; rewrite len_nil in LO; lia).
      destruct (UnPad_ok out2 HNE) as (u & n & EU & EN). rewrite EU. left. eexists false, _, s'. split; [reflexivity|]. split; [|discriminate].
      cbn [at_or_end]. constructor; cbn [set_enc set_hmac set_cipher set_dec dr_ks dr_key dr_hmac dr_cipher dr_enc dr_dec dr_closed]; try eauto.
      * exists m'. split; [exact HP' | lia].
      * exists (c ++ data), tag. rewrite <- !app_assoc. split; [reflexivity|]. split; [exact LT|].
        split; [rewrite len_app; lia | exact EV].
      * exists c, data, tag, (out ++ dr_dec d), out2, u, cst, c2. repeat split; try assumption; [|rewrite app_assoc; reflexivity].
        intros ->. rewrite len_nil in LD. lia.
    + right. unfold bad_exn. rewrite <- EB, EX20, HM16. cbn [Z.eqb].
      eexists _, _. split; [reflexivity|].
      split; [|cbn [set_enc set_hmac set_cipher dr_ks dr_key dr_hmac dr_cipher dr_enc dr_dec dr_closed]; split; [|reflexivity]; unfold drained; cbn [set_enc set_hmac set_cipher dr_ks dr_key dr_hmac dr_cipher dr_enc dr_dec dr_closed];
          split; [exact HO|]; split; [eauto|]; split; [eauto|]; split; [eauto|]; split; [discriminate | exists m'; split; [exact HP' | lia]]].
      rewrite EB. intros (body & tag' & EA & LT' & M' & ET). rewrite app_assoc in EA. destruct (app_inv_len_r _ _ _ _ EA) as [<- <-]; [lia|].
      assert (VerifySignedData (hmac_sha1 hb (hdr ++ iv ++ c ++ data)) tag = true) by (apply VerifySignedData_spec; exact ET). congruence.
Qed.

(** At the end nothing more happens. *)
Lemma dr_body_end {St} (rd : source St) P k fuel kb hb hdr iv X d s out : feeds rd P k -> 0 <= k ->
  ended P fuel kb hb hdr iv X d s out ->
  exists s', dr_body rd fuel d s = (Ok false, (d, s')) /\ ended P fuel kb hb hdr iv X d s' out.
Proof.
  intros HF HK0 [HO HKey HH HC HE (m & HP & HFu) HAu HPl].
  unfold dr_body. destruct (dr_fill_feeds rd P k fuel HF HK0 fuel d s [] m HP) as (x & data & avail & s' & t' & m' & E & ET & HP' & HM & R1 & R2);
    [cbn [length]; lia | cbn [length]; lia|].
  symmetry in ET. apply app_eq_nil in ET as [-> ->]. rewrite E, HE in *. cbn [app] in *.
  assert (ES : set_enc d [] = d) by (destruct d; cbn in *; subst; reflexivity). rewrite ES.
  destruct avail.
  { destruct (R2 eq_refl) as (HN & _ & keep & EK & _). symmetry in EK. apply app_eq_nil in EK as [-> _]. contradiction. }
  destruct (R1 eq_refl) as [_ ->]. change (slice_to [] (-20)) with (@nil byte). cbn [len length]. change (len (@nil byte) =? 0) with true. cbv iota.
  exists s'. split; [reflexivity|]. constructor; try assumption. exists m'. split; [exact HP' | lia].
Qed.

(** ** One call of [read] *)

Definition finish {St} (chars : Z) (x : res bool * (dsr * St)) : res (option str) * (dsr * St) :=
  match x with
  | (Raise e, ds) => (Raise e, ds)
  | (Ok avail, (d, s)) => let (y, d) := dr_deliver d chars avail in (Ok y, (d, s))
  end.

Lemma dr_read_body {St} (rd : source St) fuel d s chars a h c :
  dr_closed d = false -> dr_key d = Some (KAes a) -> dr_hmac d = Some h -> dr_cipher d = Some c ->
  dr_read rd fuel d s chars = finish chars (dr_body rd fuel d s).
Proof.
  intros HO HK HH HC. unfold dr_read. rewrite HO, HK. cbv beta iota. rewrite HK, HC. cbv beta iota. rewrite HK, HC. reflexivity.
Qed.

(** The first call makes the key and the cipher. *)
Lemma dr_read_start {St} (rd : source St) P k fuel ks hdr iv X a kb hb s m chars : feeds rd P k -> 0 <= k <= 3 ->
  P s (hdr ++ iv ++ X) m -> (m + length (hdr ++ iv ++ X) < fuel)%nat ->
  len hdr = 5 -> len iv = 16 -> 20 < len X ->
  ParseHeader ks hdr = Ok (KAes a) -> aes_material a kb hb -> aes_size_ok kb ->
  exists d1 s1, dr_read rd fuel (CreateDecryptingStreamReader ks) s chars = finish chars (dr_body rd fuel d1 s1) /\
    mid P fuel kb hb hdr iv X d1 s1 [] /\ dr_dec d1 = [].
Proof.
  intros HF HK HP HFu LH LI LX EP [Ek Eh] HS.
  destruct (ReadBytes_feeds rd P k HF ltac:(lia) fuel s _ m 5 true [] HP) as (x & av & s1 & t1 & m1 & E & ET & HP1 & HM & R1 & R2 & R3);
    [reflexivity | exact HFu|]. cbn [app] in *.
  pose proof (f_equal len ET) as LT. rewrite !len_app in LT. pose proof (len_nonneg X).
  assert (av = true) as ->.
  { destruct av; [reflexivity|]. destruct (R1 eq_refl) as [-> L]. rewrite len_nil in LT. lia. }
  destruct (R2 eq_refl) as [LX5|[C _]]; [|discriminate].
  destruct (split_at x 5) as (x1 & x2 & -> & L1); [lia|]. rewrite <- app_assoc in ET. destruct (app_inv_len _ _ _ _ ET) as [<- ET2]; [lia|].
  set (d1 := MkDsr ks (Some (KAes a)) (Some (MkHs hb hdr)) None x2 [] false).
  assert (S1 : dr_CreateKey rd fuel (CreateDecryptingStreamReader ks) s = (Ok true, (d1, s1))).
  { unfold dr_CreateKey. cbn [CreateDecryptingStreamReader dr_enc]. change (HEADER_SIZE - len (@nil byte)) with 5. rewrite E. cbn [app set_enc dr_enc dr_ks CreateDecryptingStreamReader].
    change HEADER_SIZE with 5. replace (5 <=? len (hdr ++ x2)) with true by lia. rewrite slice_to_app, slice_from_app by lia. cbn [dr_ks set_enc CreateDecryptingStreamReader]. rewrite EP. cbn [key_hmac_key bind].
    unfold CreateStreamable. rewrite Eh. reflexivity. }
  rewrite len_app in *.
  destruct (ReadBytes_feeds rd P k HF ltac:(lia) fuel s1 t1 m1 (16 - len x2) true [] HP1) as (y & av & s2 & t2 & m2 & E2 & -> & HP2 & HM2 & Q1 & Q2 & _);
    [rewrite len_nil; lia | apply (f_equal (@length byte)) in ET; rewrite !app_length in *; lia|]. cbn [app] in *.
  rewrite len_app in LT.
  assert (av = true) as ->.
  { destruct av; [reflexivity|]. destruct (Q1 eq_refl) as [-> L]. rewrite len_nil in LT. lia. }
  destruct (Q2 eq_refl) as [LY|[C _]]; [|discriminate].
  destruct (split_at (x2 ++ y) 16) as (y1 & y2 & EY & L2); [rewrite len_app; lia|]. rewrite app_assoc, EY, <- app_assoc in ET2.
  destruct (app_inv_len _ _ _ _ ET2) as [<- ->]; [lia|].
  set (d2 := MkDsr ks (Some (KAes a)) (Some (MkHs hb (hdr ++ iv))) (Some (MkCipher (key_schedule kb) iv)) y2 [] false).
  assert (S2 : dr_CreateCipher rd fuel (KAes a) d1 s1 = (Ok true, (d2, s2))).
  { unfold dr_CreateCipher. cbn [d1 dr_enc]. change block_size with 16. rewrite E2. cbn [set_enc dr_enc dr_hmac]. rewrite EY.
    replace (16 <=? len (iv ++ y2)) with true by (rewrite len_app; pose proof (len_nonneg y2); lia).
    rewrite slice_to_app, slice_from_app by lia. rewrite Ek. cbn [bind]. rewrite (AES_new_iff kb iv HS LI). reflexivity. }
  exists d2, s2. split.
  - unfold dr_read. cbn [CreateDecryptingStreamReader dr_closed dr_key]. rewrite S1. cbn [d1 dr_key dr_cipher]. fold d1. rewrite S2. reflexivity.
  - split; [|reflexivity]. constructor; [reflexivity | exists a; reflexivity|].
    exists [], (MkCipher (key_schedule kb) iv), t2, m2. cbn [d2 dr_hmac dr_cipher dr_enc dr_dec app].
    split; [rewrite app_nil_r; reflexivity|]. split; [reflexivity|]. split; [apply (AES_new_ok kb iv), AES_new_iff; assumption|].
    split; [reflexivity|]. split; [exact HP2|].
    split; [apply (f_equal (@length byte)) in EY, ET; rewrite !app_length in *; lia|].
    split; [reflexivity|]. split; [apply cipher_decrypt_nil | exact LX].
Qed.

Lemma mid_set_dec {St} P fuel kb hb hdr iv X d (s : St) out r rest :
  mid P fuel kb hb hdr iv X d s out -> dr_dec d = r ++ rest -> mid P fuel kb hb hdr iv X (set_dec d rest) s (out ++ r).
Proof.
  intros [HO HK HR] E. constructor; cbn [set_dec dr_closed dr_key dr_hmac dr_cipher dr_enc dr_dec]; try assumption.
  rewrite E in HR. rewrite <- app_assoc. exact HR.
Qed.

Lemma ended_set_dec {St} P fuel kb hb hdr iv X d (s : St) out r rest :
  ended P fuel kb hb hdr iv X d s out -> dr_dec d = r ++ rest -> ended P fuel kb hb hdr iv X (set_dec d rest) s (out ++ r).
Proof.
  intros [HO HK HH HC HE HS HA HP] E. constructor; cbn [set_dec dr_closed dr_key dr_hmac dr_cipher dr_enc dr_dec]; try assumption.
  rewrite E in HP. rewrite <- app_assoc. exact HP.
Qed.

(** What one call does, before the end is reached or after. *)
Definition read_step {St} P fuel kb hb hdr iv X (chars : Z) (out dec : str) (x : res (option str) * (dsr * St)) : Prop :=
  (exists r avail d' s', x = (Ok (answer r avail), (d', s')) /\ at_or_end P fuel kb hb hdr iv X d' s' (out ++ r) avail /\
     (0 <= chars -> len r <= chars) /\ (chars <> 0 -> r = [] -> avail = false /\ dr_dec d' = [])) \/
  (exists d' s', x = (Raise (bad_exn X), (d', s')) /\ ~ authentic hb hdr iv X /\ drained P fuel d' s' /\ dr_dec d' = dec).

Lemma finish_mid {St} (rd : source St) P k fuel kb hb hdr iv X d s out chars : feeds rd P k -> 0 <= k ->
  aes_size_ok kb -> len iv = 16 -> mid P fuel kb hb hdr iv X d s out ->
  read_step P fuel kb hb hdr iv X chars out (dr_dec d) (finish chars (dr_body rd fuel d s)).
Proof.
  intros HF HK0 HS HI HM. destruct (dr_body_mid rd P k fuel kb hb hdr iv X d s out HF HK0 HS HI HM) as [(avail & d' & s' & E & HA & HN)|(d' & s' & E & HR)]; rewrite E; cbn [finish].
  - left. destruct (dr_deliver_spec d' chars avail) as (r & rest & ED & EC & HL & HZ). rewrite ED. exists r, avail, (set_dec d' rest), s'.
    split; [reflexivity|]. split; [destruct avail; [apply mid_set_dec | apply ended_set_dec]; assumption|]. split; [exact HL|].
    intros HC ->. specialize (HZ HC eq_refl). destruct avail; [exfalso; apply HN; [reflexivity | exact HZ]|]. split; [reflexivity|].
    cbn [set_dec dr_dec]. cbn [app] in EC. congruence.
  - right. exists d', s'. split; [reflexivity | exact HR].
Qed.

Lemma finish_end {St} (rd : source St) P k fuel kb hb hdr iv X d s out chars : feeds rd P k -> 0 <= k ->
  ended P fuel kb hb hdr iv X d s out ->
  read_step P fuel kb hb hdr iv X chars out (dr_dec d) (finish chars (dr_body rd fuel d s)).
Proof.
  intros HF HK0 HE. destruct (dr_body_end rd P k fuel kb hb hdr iv X d s out HF HK0 HE) as (s' & E & HA). rewrite E. cbn [finish].
  left. destruct (dr_deliver_spec d chars false) as (r & rest & ED & EC & HL & HZ). rewrite ED. exists r, false, (set_dec d rest), s'.
  split; [reflexivity|]. split; [apply ended_set_dec; assumption|]. split; [exact HL|].
  intros HC ->. specialize (HZ HC eq_refl). split; [reflexivity|]. cbn [set_dec dr_dec]. cbn [app] in EC. congruence.
Qed.

(** A reader at any point of such a stream. *)
Definition ready {St} (P : St -> str -> nat -> Prop) fuel ks kb hb hdr iv X d (s : St) (out : str) : Prop :=
  (d = CreateDecryptingStreamReader ks /\ out = [] /\ exists m, P s (hdr ++ iv ++ X) m /\ (m + length (hdr ++ iv ++ X) < fuel)%nat) \/
  mid P fuel kb hb hdr iv X d s out \/ ended P fuel kb hb hdr iv X d s out.

Lemma at_or_end_ready {St} P fuel ks kb hb hdr iv X d (s : St) out avail :
  at_or_end P fuel kb hb hdr iv X d s out avail -> ready P fuel ks kb hb hdr iv X d s out.
Proof. destruct avail; cbn [at_or_end]; intros H; right; [left | right]; exact H. Qed.

(** The stream is addressed to the AES key [a] of the set. *)
Definition addressed (ks : keyset) (a : aeskey) (kb hb hdr iv X : str) : Prop :=
  len hdr = 5 /\ len iv = 16 /\ 20 < len X /\ ParseHeader ks hdr = Ok (KAes a) /\ aes_material a kb hb /\ aes_size_ok kb.

Lemma dr_read_ready {St} (rd : source St) P k fuel ks a kb hb hdr iv X d s out chars : feeds rd P k -> 0 <= k <= 3 ->
  addressed ks a kb hb hdr iv X -> ready P fuel ks kb hb hdr iv X d s out ->
  read_step P fuel kb hb hdr iv X chars out (dr_dec d) (dr_read rd fuel d s chars).
Proof.
  intros HF HK (LH & LI & LX & EP & HMt & HS) [(-> & -> & m & HP & HFu)|[HM|HE]].
  - destruct (dr_read_start rd P k fuel ks hdr iv X a kb hb s m chars HF HK HP HFu LH LI LX EP HMt HS) as (d1 & s1 & -> & HM & ED).
    change (dr_dec (CreateDecryptingStreamReader ks)) with (@nil byte).
    pose proof (finish_mid rd P k fuel kb hb hdr iv X d1 s1 [] chars HF ltac:(lia) HS LI HM) as H. rewrite ED in H. exact H.
  - destruct HM as [HO (a' & HK') (c & cst & t & m & HH & HC & HR)] eqn:EM. rewrite (dr_read_body rd fuel d s chars a' _ _ HO HK' HH HC).
    apply (finish_mid rd P k); auto; lia.
  - destruct HE as [HO (a' & HK') (h & HH) (c & HC) H5 H6 H7 H8] eqn:EE. rewrite (dr_read_body rd fuel d s chars a' h c HO HK' HH HC).
    apply (finish_end rd P k); auto; lia.
Qed.

(** ** Successive calls *)

(** What the successful reads returned. *)
Definition delivered (xs : list (res (option str))) : str :=
  concat (map (fun x => match x with Ok (Some s) => s | _ => [] end) xs).

Lemma delivered_answer r avail xs : delivered (Ok (answer r avail) :: xs) = r ++ delivered xs.
Proof. unfold delivered. cbn [map concat]. destruct r, avail; reflexivity. Qed.

(** Reads that do not fail keep the reader in the stream. *)
Lemma dr_reads_ready {St} (rd : source St) P k fuel ks a kb hb hdr iv X : feeds rd P k -> 0 <= k <= 3 ->
  addressed ks a kb hb hdr iv X -> forall cs d s out, ready P fuel ks kb hb hdr iv X d s out ->
  let xs := dr_reads rd fuel d s cs in
  (Forall (fun x => is_ok x = true) xs -> exists d' s', ready P fuel ks kb hb hdr iv X d' s' (out ++ delivered xs)) /\
  (authentic hb hdr iv X -> Forall (fun x => is_ok x = true) xs).
Proof.
  intros HF HK HA. induction cs as [|c cs IH]; intros d s out HR; cbn [dr_reads]; cbv zeta.
  - split; [|constructor]. intros _. exists d, s. unfold delivered. cbn [map concat]. rewrite app_nil_r. exact HR.
  - destruct (dr_read_ready rd P k fuel ks a kb hb hdr iv X d s out c HF HK HA HR) as [(r & avail & d' & s' & E & HE & _)|(d' & s' & E & HN & _)]; rewrite E; cbn [fst snd].
    + destruct (IH d' s' (out ++ r) (at_or_end_ready P fuel ks kb hb hdr iv X d' s' (out ++ r) avail HE)) as [I1 I2]. split.
      * intros HFa. inversion HFa as [|? ? _ HFa']; subst. destruct (I1 HFa') as (d2 & s2 & HR2). exists d2, s2.
        rewrite delivered_answer, app_assoc. exact HR2.
      * intros HAu. constructor; [reflexivity | exact (I2 HAu)].
    + split; [intros HFa; inversion HFa; discriminate | contradiction].
Qed.

(** The reader and its input after successive reads. *)
Fixpoint dr_after {St} (rd : source St) (fuel : nat) (d : dsr) (s : St) (cs : list Z) : dsr * St :=
  match cs with
  | [] => (d, s)
  | c :: cs' => let ds := snd (dr_read rd fuel d s c) in dr_after rd fuel (fst ds) (snd ds) cs'
  end.

Lemma dr_reads_snoc {St} (rd : source St) fuel c : forall cs d s,
  dr_reads rd fuel d s (cs ++ [c]) =
    dr_reads rd fuel d s cs ++ [fst (dr_read rd fuel (fst (dr_after rd fuel d s cs)) (snd (dr_after rd fuel d s cs)) c)].
Proof.
  induction cs as [|c' cs IH]; intros d s; cbn [app dr_reads dr_after].
  - cbn [fst snd]. destruct (dr_read rd fuel d s c) as [x ds]. reflexivity.
  - destruct (dr_read rd fuel d s c') as [x ds]. cbn [snd]. rewrite IH. reflexivity.
Qed.

Lemma dr_after_ready {St} (rd : source St) P k fuel ks a kb hb hdr iv X : feeds rd P k -> 0 <= k <= 3 ->
  addressed ks a kb hb hdr iv X -> forall cs d s out, ready P fuel ks kb hb hdr iv X d s out ->
  Forall (fun x => is_ok x = true) (dr_reads rd fuel d s cs) ->
  ready P fuel ks kb hb hdr iv X (fst (dr_after rd fuel d s cs)) (snd (dr_after rd fuel d s cs)) (out ++ delivered (dr_reads rd fuel d s cs)).
Proof.
  intros HF HK HA. induction cs as [|c cs IH]; intros d s out HR; cbn [dr_reads dr_after].
  - intros _. unfold delivered. cbn [map concat fst snd]. rewrite app_nil_r. exact HR.
  - destruct (dr_read_ready rd P k fuel ks a kb hb hdr iv X d s out c HF HK HA HR) as [(r & avail & d' & s' & E & HE & _)|(d' & s' & E & HN & _)]; rewrite E; cbn [fst snd].
    + intros HFa. inversion HFa as [|? ? _ HFa']; subst. rewrite delivered_answer, app_assoc. apply IH; [|exact HFa'].
      apply (at_or_end_ready P fuel ks kb hb hdr iv X d' s' (out ++ r) avail HE).
    + intros HFa. inversion HFa; discriminate.
Qed.

(** A clean end is only reported when the tag was right, and then everything was delivered. *)
Lemma clean_end {St} (rd : source St) P k fuel ks a kb hb hdr iv X cs c d s out xs : feeds rd P k -> 0 <= k <= 3 ->
  addressed ks a kb hb hdr iv X -> ready P fuel ks kb hb hdr iv X d s out -> c <> 0 ->
  dr_reads rd fuel d s (cs ++ [c]) = xs ++ [Ok (Some [])] -> Forall (fun x => is_ok x = true) xs ->
  exists d' s', ended P fuel kb hb hdr iv X d' s' (out ++ delivered xs) /\ dr_dec d' = [].
Proof.
  intros HF HK HA HR HC E HFa. rewrite dr_reads_snoc in E. apply app_inj_tail in E as [<- E].
  pose proof (dr_after_ready rd P k fuel ks a kb hb hdr iv X HF HK HA cs d s out HR HFa) as HR2.
  destruct (dr_read_ready rd P k fuel ks a kb hb hdr iv X _ _ _ c HF HK HA HR2) as [(r & avail & d' & s' & E2 & HE & _ & HZ)|(d' & s' & E2 & _)]; rewrite E2 in E; cbn [fst] in E; [|discriminate].
  assert (r = []) as -> by (unfold answer in E; destruct r; [reflexivity | discriminate]).
  destruct (HZ HC eq_refl) as [-> HD]. rewrite app_nil_r in HE. exists d', s'. split; [exact HE | exact HD].
Qed.

(** ** Streams whose body is a padded plaintext *)

Definition carries (kb iv X p : str) : Prop :=
  exists body tag c', X = body ++ tag /\ len tag = 20 /\ len body mod 16 = 0 /\
    cipher_decrypt (MkCipher (key_schedule kb) iv) body = Ok (Pad p, c').

Lemma len_decrypt c data out c' : cipher_ok c -> cipher_decrypt c data = Ok (out, c') -> len out = len data /\ len data mod 16 = 0.
Proof.
  intros HC H. destruct (Z.eq_dec (len data mod 16) 0) as [M|M]; [|rewrite cipher_decrypt_bad in H by exact M; discriminate].
  destruct (cipher_decrypt_ok c data HC M) as (o & c2 & E & _ & L). rewrite E in H. apply Ok_inj, pair_inj in H as [<- _]. split; assumption.
Qed.

Lemma mid_prefix {St} P fuel kb hb hdr iv X d (s : St) out p : aes_size_ok kb -> len iv = 16 ->
  mid P fuel kb hb hdr iv X d s out -> carries kb iv X p -> exists rest, p = out ++ rest.
Proof.
  intros HS HI [_ _ (c & cst & t & m & _ & _ & HOK & EX & _ & _ & HCM & HD & HL)] (body & tag & c' & EX2 & LT & HBM & HB).
  rewrite EX in EX2. pose proof (f_equal len EX2) as L. rewrite !len_app in L. rewrite len_app in HL.
  pose proof (len_nonneg c). pose proof (len_nonneg body).
  assert (exists b2, body = c ++ b2 /\ len b2 mod 16 = 0 /\ 16 <= len b2) as (b2 & -> & HB2 & L2).
  { destruct (split_at body (len c)) as (b1 & b2 & -> & L1); [lia|]. rewrite <- app_assoc in EX2. destruct (app_inv_len _ _ _ _ EX2) as [<- _]; [lia|].
    exists b2. rewrite len_app in *. split; [reflexivity|]. split; lia. }
  rewrite cipher_decrypt_app, HD in HB by assumption. cbn [bind] in HB. apply bind_Ok in HB as ([o2 c2] & E2 & HB). apply Ok_inj, pair_inj in HB as [EP _].
  destruct (len_decrypt _ _ _ _ HOK E2) as [LO _].
  destruct (Pad_spec p) as (n & Hn & En & EPad). rewrite EPad in EP.
  assert (LP : len (out ++ dr_dec d) <= len p).
  { pose proof (f_equal len EP) as L3. rewrite (len_app _ o2), (len_app p), len_rep in L3 by lia. lia. }
  destruct (split_at p (len (out ++ dr_dec d))) as (p1 & p2 & E1 & L1); [pose proof (len_nonneg (out ++ dr_dec d)); lia|]. rewrite E1 in EP. rewrite <- (app_assoc p1) in EP.
  destruct (app_inv_len _ _ _ _ EP) as [E3 _]; [lia|]. exists (dr_dec d ++ p2). rewrite app_assoc, E3. exact E1.
Qed.

Lemma ended_plain {St} P fuel kb hb hdr iv X d (s : St) out p : aes_size_ok kb -> len iv = 16 ->
  ended P fuel kb hb hdr iv X d s out -> carries kb iv X p -> p = out ++ dr_dec d.
Proof.
  intros HS HI [_ _ _ _ _ _ _ (c & last & tag & p1 & p2 & u & c1 & c2 & EX & LT & HCM & HLM & HNE & E1 & E2 & EU & EO)] (body & tag' & c' & EX2 & LT' & HBM & HB).
  rewrite EX, app_assoc in EX2. destruct (app_inv_len_r _ _ _ _ EX2) as [<- _]; [lia|].
  rewrite cipher_decrypt_app, E1 in HB by assumption. cbn [bind] in HB. rewrite E2 in HB. cbn [bind] in HB. apply Ok_inj, pair_inj in HB as [EP _].
  pose proof (AES_new_ok kb iv _ (AES_new_iff kb iv HS HI)) as HOK0.
  destruct (len_decrypt _ _ _ _ HOK0 E1) as [LP1 _]. destruct (cipher_decrypt_ok _ c HOK0 HCM) as (o & c3 & E3 & HOK1 & _). rewrite E1 in E3. apply Ok_inj, pair_inj in E3 as [_ <-].
  destruct (len_decrypt _ _ _ _ HOK1 E2) as [LP2 _].
  destruct (Pad_spec p) as (n & Hn & En & EPad). rewrite EPad in EP.
  assert (16 <= len last) by (pose proof (len_nonneg last); destruct last; [contradiction | rewrite len_cons in *; pose proof (len_nonneg last); lia]).
  pose proof (f_equal len EP) as L3. rewrite !len_app, len_rep in L3 by lia.
  destruct (split_at p (len p1)) as (q1 & q2 & Eq & Lq); [pose proof (len_nonneg p1); lia|].
  rewrite Eq in EP. rewrite <- app_assoc in EP. destruct (app_inv_len _ _ _ _ EP) as [<- EP2]; [lia|].
  rewrite EP2, UnPad_app in EU by lia. apply Ok_inj in EU. rewrite EO, <- EU. exact Eq.
Qed.

Lemma ready_prefix {St} P fuel ks kb hb hdr iv X d (s : St) out p : aes_size_ok kb -> len iv = 16 ->
  ready P fuel ks kb hb hdr iv X d s out -> carries kb iv X p -> exists rest, p = out ++ rest.
Proof.
  intros HS HI [(_ & -> & _)|[HM|HE]] HC; [exists p; reflexivity | eapply mid_prefix; eassumption | eexists; eapply ended_plain; eassumption].
Qed.

(** Enough reads deliver everything. *)
Definition asking (cs : list Z) : nat := length (filter (fun c => negb (c =? 0)) cs).

Lemma enough_reads {St} (rd : source St) P k fuel ks a kb hb hdr iv X p : feeds rd P k -> 0 <= k <= 3 ->
  addressed ks a kb hb hdr iv X -> authentic hb hdr iv X -> carries kb iv X p ->
  forall cs d s out, ready P fuel ks kb hb hdr iv X d s out ->
  out ++ delivered (dr_reads rd fuel d s cs) = p \/ (asking cs <= length (delivered (dr_reads rd fuel d s cs)))%nat.
Proof.
  intros HF HK HA HAu HCa. assert (HS : aes_size_ok kb) by apply HA. assert (HI : len iv = 16) by apply HA.
  induction cs as [|c cs IH]; intros d s out HR; [right; cbn; lia|].
  pose proof (proj2 (dr_reads_ready rd P k fuel ks a kb hb hdr iv X HF HK HA (c :: cs) d s out HR) HAu) as HFa.
  pose proof (dr_after_ready rd P k fuel ks a kb hb hdr iv X HF HK HA (c :: cs) d s out HR HFa) as HRall.
  destruct (ready_prefix _ _ _ _ _ _ _ _ _ _ _ p HS HI HRall HCa) as (rest & EPfx).
  cbn [dr_reads] in *. destruct (dr_read_ready rd P k fuel ks a kb hb hdr iv X d s out c HF HK HA HR) as [(r & avail & d' & s' & E & HE & _ & HZ)|(d' & s' & E & HN & _)]; [|contradiction].
  rewrite E in *. cbn [fst snd] in *. rewrite delivered_answer in *.
  pose proof (at_or_end_ready P fuel ks kb hb hdr iv X d' s' (out ++ r) avail HE) as HR'.
  unfold asking. cbn [filter]. destruct (Z.eqb_spec c 0) as [->|HC]; cbn [negb].
  - destruct (IH d' s' (out ++ r) HR') as [I|I]; [left; rewrite app_assoc; exact I | right; rewrite app_length; unfold asking in I; lia].
  - destruct r as [|x r].
    + destruct (HZ HC eq_refl) as [-> HD]. cbn [at_or_end] in HE. rewrite app_nil_r in HE.
      pose proof (ended_plain _ _ _ _ _ _ _ _ _ _ _ HS HI HE HCa) as EPl. rewrite HD, app_nil_r in EPl. left. cbn [app].
      rewrite EPl in EPfx at 1. cbn [app] in EPfx. rewrite <- app_assoc in EPfx. rewrite <- (app_nil_r out) in EPfx at 1. apply app_inv_head in EPfx.
      symmetry in EPfx. apply app_eq_nil in EPfx as [-> _]. rewrite app_nil_r. symmetry. exact EPl.
    + destruct (IH d' s' (out ++ x :: r) HR') as [I|I]; [left; rewrite app_assoc; exact I | right; cbn [app length]; rewrite app_length; unfold asking in I; lia].
Qed.

(** ** The Base64 reader *)

(** Characters of the web-safe alphabet (and '+', '/'), as the decoder sees them. *)
Definition good_char (c : byte) : Prop :=
  beqb c "="%byte = false /\ is_eol c = false /\ is_space c = false /\ exists v, b64_val (of_urlsafe c) = Some v.

(** What a text of such characters decodes to. *)
Definition decoded (u : str) : str := regroup (values u).

Lemma values_app a b : values (a ++ b) = values a ++ values b.
Proof.
  unfold values. rewrite map_app. induction (map of_urlsafe a) as [|c l IH]; [reflexivity|].
  cbn [app vals]. destruct (b64_val c); rewrite IH; reflexivity.
Qed.

Lemma len_values u : Forall good_char u -> len (values u) = len u.
Proof.
  unfold values. induction 1 as [|c u (_ & _ & _ & v & Hv) _ IH]; [reflexivity|]. cbn [map vals]. rewrite Hv, !len_cons, IH. reflexivity.
Qed.

Lemma decode_good u : Forall good_char u ->
  Base64WSDecode u = if len u mod 4 =? 1 then Raise Base64DecodingError else Ok (decoded u).
Proof.
  intros H. unfold Base64WSDecode.
  assert (E1 : filter (fun c => negb (is_eol c)) u = u).
  { apply filter_all. eapply Forall_impl; [|exact H]. intros c (_ & Hc & _). rewrite Hc. reflexivity. }
  assert (E2 : filter (fun c => negb (is_space c)) u = u).
  { apply filter_all. eapply Forall_impl; [|exact H]. intros c (_ & _ & Hc & _). rewrite Hc. reflexivity. }
  rewrite E1, E2, decode_stripped_char by (eapply Forall_impl; [|exact H]; intros c (Hc & _); exact Hc).
  rewrite (len_values u H). unfold accepts. cbv zeta. fold (decoded u). pose proof (len_nonneg u).
  assert (0 <= len u mod 4 < 4) by lia. remember (len u mod 4) as q. clear Heqq.
  assert (q = 0 \/ q = 1 \/ q = 2 \/ q = 3) as [-> | [-> | [-> | ->]]] by lia; reflexivity.
Qed.

Lemma regroup_app a b : len a mod 4 = 0 -> regroup (a ++ b) = regroup a ++ regroup b.
Proof.
  induction a as [|x|x y|x y z|x y z w a IH] using ind4; intros H; try reflexivity; try discriminate H.
  cbn [app regroup]. rewrite IH; [reflexivity|]. rewrite !len_cons in H. pose proof (len_nonneg a). lia.
Qed.

Lemma len_regroup vs : len (regroup vs) = 3 * len vs / 4.
Proof.
  induction vs as [|x|x y|x y z|x y z w vs IH] using ind4; try reflexivity.
  cbn [regroup]. rewrite !len_cons, IH. pose proof (len_nonneg vs). lia.
Qed.

Lemma decoded_app a b : Forall good_char a -> len a mod 4 = 0 -> decoded (a ++ b) = decoded a ++ decoded b.
Proof. intros HG H. unfold decoded. rewrite values_app, regroup_app; [reflexivity | rewrite len_values; assumption]. Qed.

Lemma len_decoded u : Forall good_char u -> len (decoded u) = 3 * len u / 4.
Proof. intros H. unfold decoded. rewrite len_regroup, len_values by exact H. reflexivity. Qed.

(** Feeding the decoder a piece of text. *)
Lemma decoder_decode_good b data : Forall good_char (b ++ data) ->
  exists x b', decoder_decode b data = Ok (decoded x, b') /\ b ++ data = x ++ b' /\ len x mod 4 = 0 /\ len b' < 4.
Proof.
  intros HG. unfold decoder_decode, buffer_decode. set (d := b ++ data) in *. set (n := 4 * (len d / 4)). pose proof (len_nonneg d).
  assert (L : len (slice_to d n) = n) by (apply len_slice_to; unfold n; lia).
  assert (HG2 : Forall good_char (slice_to d n)).
  { rewrite <- (slice_to_from d n) in HG. apply Forall_app in HG as [HG _]. exact HG. }
  rewrite (decode_good _ HG2), L. replace (n mod 4 =? 1) with false by (unfold n; lia). cbn [bind].
  exists (slice_to d n), (slice_from d n). split; [reflexivity|]. split; [symmetry; apply slice_to_from|]. split; [rewrite L; unfold n; lia|].
  rewrite len_slice_from by (unfold n; lia). unfold n. lia.
Qed.

(** The reader's state relative to the text [u] still in the stream and the bytes [t] still to
    be delivered; [bad] tells whether the length of the whole text is 1 modulo 4. *)
Definition br_at {St} (P : St -> str -> nat -> Prop) (fuel : nat) (bad : bool) (r : b64reader St) (t : str) : Prop :=
  exists u m, P (br_src r) u m /\ Forall good_char (br_buffer r ++ u) /\ len (br_buffer r) < 4 /\
    (len (br_buffer r ++ u) mod 4 =? 1) = bad /\ t = br_chars r ++ decoded (br_buffer r ++ u) /\ (m + length u < fuel)%nat.

Lemma br_loop_at {St} (rd : source St) P k size chars : feeds rd P k -> 0 <= k -> size <> 0 -> forall fuel r u m newdata,
  P (br_src r) u m -> Forall good_char (br_buffer r ++ u) -> len (br_buffer r) < 4 -> (m + length u < fuel)%nat ->
  exists r' nd nc u' m', br_loop rd fuel r size chars newdata = (r', Ok nd) /\
    br_chars r' = br_chars r ++ nc /\ decoded (br_buffer r ++ u) = nc ++ decoded (br_buffer r' ++ u') /\
    P (br_src r') u' m' /\ Forall good_char (br_buffer r' ++ u') /\ len (br_buffer r') < 4 /\
    len (br_buffer r' ++ u') mod 4 = len (br_buffer r ++ u) mod 4 /\ (m' + length u' <= m + length u)%nat /\
    (br_satisfied chars size (br_chars r') = true \/ (nd = Some [] /\ u' = [])) /\
    (0 < size -> chars < 0 -> len (br_chars r) < size -> 4 * len (br_chars r') <= 4 * (size - 1) + 3 * (3 + k * size)).
Proof.
  intros HF HK0 HZ.
  assert (Z1 : (if size <? 0 then -1 else size) <> 0) by (destruct (size <? 0) eqn:E; lia).
  induction fuel as [|fuel IH]; intros r u m newdata HP HG HB HFu; [lia|].
  cbn [br_loop]. destruct (br_satisfied chars size (br_chars r)) eqn:ES.
  { exists r, newdata, [], u, m. rewrite app_nil_r. repeat split; try assumption; try reflexivity; try lia; try (left; exact ES); nia. }
  destruct (HF (br_src r) u m (if size <? 0 then -1 else size) HP Z1) as [(s1 & m1 & E & HP1 & HM)|(d & u1 & s1 & m1 & E & -> & HP1 & HM & HE & HC)]; rewrite E.
  - destruct (IH (MkBr (br_chars r) (br_buffer r) s1) u m1 None HP1 HG HB) as (r' & nd & nc & u' & m' & E2 & R); [lia|].
    exists r', nd, nc, u', m'. split; [exact E2|]. cbn [br_chars br_buffer br_src] in R. repeat (destruct R as [?R1 R]; split; [assumption || lia|]). exact R.
  - cbn [br_chars br_buffer br_src]. rewrite app_assoc in HG. pose proof HG as HG1. apply Forall_app in HG1 as [HG1 HG2].
    destruct (decoder_decode_good _ _ HG1) as (x & b' & ED & EX & MX & LB). rewrite ED.
    pose proof HG1 as HG3. rewrite EX in HG3. apply Forall_app in HG3 as [HGx HGb].
    assert (DD : decoded (br_buffer r ++ d ++ u1) = decoded x ++ decoded (b' ++ u1)) by (rewrite app_assoc, EX, <- app_assoc; apply decoded_app; assumption).
    assert (LL : len (b' ++ u1) mod 4 = len (br_buffer r ++ d ++ u1) mod 4).
    { rewrite (app_assoc (br_buffer r)), EX, <- app_assoc, (len_app x). pose proof (len_nonneg x). pose proof (len_nonneg (b' ++ u1)). lia. }
    assert (LX : 0 < size -> 4 * len (decoded x) <= 3 * (3 + k * size)).
    { intros H0. rewrite len_decoded by exact HGx. replace (if size <? 0 then -1 else size) with size in HC by (destruct (size <? 0) eqn:E3; lia).
      specialize (HC H0). apply (f_equal len) in EX. rewrite !len_app in EX. pose proof (len_nonneg b'). lia. }
    destruct d as [|y d].
    + specialize (HE eq_refl). cbn [app] in HE. subst u1.
      exists (MkBr (br_chars r ++ decoded x) b' s1), (Some []), (decoded x), [], m1. cbn [br_chars br_buffer br_src].
      split; [reflexivity|]. split; [reflexivity|]. split; [exact DD|]. split; [exact HP1|]. split; [rewrite app_nil_r; exact HGb|].
      split; [exact LB|]. split; [exact LL|]. split; [rewrite app_length; lia|]. split; [right; split; reflexivity|].
      intros H0 _ H1. specialize (LX H0). rewrite len_app. lia.
    + destruct (IH (MkBr (br_chars r ++ decoded x) b' s1) u1 m1 (Some (y :: d)) HP1) as (r' & nd & nc & u' & m' & E2 & R1 & R2 & R3 & R4 & R5 & R6 & R7 & R8 & R9);
        [apply Forall_app; split; assumption | exact LB | cbn [app length] in HFu; rewrite app_length in HFu; lia|].
      cbn [br_chars br_buffer br_src] in *.
      exists r', nd, (decoded x ++ nc), u', m'. split; [exact E2|]. split; [rewrite R1, app_assoc; reflexivity|].
      split; [rewrite DD, R2, app_assoc; reflexivity|]. split; [exact R3|]. split; [exact R4|]. split; [exact R5|]. split; [rewrite R6; exact LL|].
      split; [cbn [app length]; rewrite app_length; lia|]. split; [exact R8|].
      intros H0 H1 H2. specialize (LX H0). destruct (Z.lt_ge_cases (len (br_chars r ++ decoded x)) size) as [L|L]; [apply R9; assumption|].
      assert (S : br_satisfied chars size (br_chars r ++ decoded x) = true).
      { unfold br_satisfied. replace (chars <? 0) with true by lia. replace (size <? 0) with false by lia. lia. }
      destruct fuel as [|fuel]; [cbn [app length] in HFu; rewrite app_length in HFu; lia|]. cbn [br_loop br_chars] in E2. rewrite S in E2. apply pair_inj in E2 as [<- _].
      cbn [br_chars]. rewrite len_app. lia.
Qed.

(** One call of [read]: it delivers a piece of what is due, or the text ends badly. *)
Lemma br_read_at {St} (rd : source St) P k fuel bad r t size chars : feeds rd P k -> 0 <= k -> size <> 0 \/ chars = 0 -> br_at P fuel bad r t ->
  (exists r' d t', br_read rd fuel r size chars = (r', Ok (Some d)) /\ t = d ++ t' /\ br_at P fuel bad r' t' /\
     (chars <> 0 -> d = [] -> t = [] /\ bad = false) /\ (chars < 0 -> br_chars r' = []) /\
     (0 < size -> chars < 0 -> br_chars r = [] -> 4 * len d <= 4 * (size - 1) + 3 * (3 + k * size))) \/
  (exists r', br_read rd fuel r size chars = (r', Raise Base64DecodingError) /\ chars <> 0 /\ t = [] /\ bad = true /\ br_at P fuel bad r' []).
Proof.
  intros HF HK0 HSC (u & m & HP & HG & HB & HQ & -> & HFu). unfold br_read.
  destruct (Z.eq_dec chars 0) as [->|HC].
  - assert (E : br_loop rd fuel r size 0 (Some []) = (r, Ok (Some []))).
    { destruct fuel; [lia|]. cbn [br_loop]. unfold br_satisfied. cbn [Z.ltb Z.compare]. replace (0 <=? len (br_chars r)) with true by (pose proof (len_nonneg (br_chars r)); lia). reflexivity. }
    rewrite E. cbn [Z.ltb Z.compare]. change (slice_to (br_chars r) 0) with (slice_to (br_chars r) 0).
    assert (E0 : slice_to (br_chars r) 0 = []) by (rewrite slice_to_firstn by lia; reflexivity). rewrite E0, slice_from_0. cbn [Z.eqb].
    left. eexists _, [], _. split; [reflexivity|]. split; [reflexivity|]. split; [exists u, m; cbn [br_chars br_buffer br_src]; repeat split; try assumption|].
    split; [contradiction|]. split; lia.
  - destruct HSC as [HZ|]; [|contradiction].
    destruct (br_loop_at rd P k size chars HF HK0 HZ fuel r u m (Some []) HP HG HB HFu) as (r' & nd & nc & u' & m' & E & R1 & R2 & R3 & R4 & R5 & R6 & R7 & R8 & R9).
    rewrite E. set (res := if chars <? 0 then br_chars r' else slice_to (br_chars r') chars).
    set (rest := if chars <? 0 then [] else slice_from (br_chars r') chars).
    assert (ER : br_chars r' = res ++ rest) by (unfold res, rest; destruct (chars <? 0); [rewrite app_nil_r | rewrite slice_to_from]; reflexivity).
    assert (HRest : chars < 0 -> rest = []) by (intros H; unfold rest; replace (chars <? 0) with true by lia; reflexivity).
    assert (AT : br_at P fuel bad (MkBr rest (br_buffer r') (br_src r')) (rest ++ decoded (br_buffer r' ++ u'))).
    { exists u', m'. cbn [br_chars br_buffer br_src]. repeat split; try assumption; [rewrite R6; exact HQ | lia]. }
    assert (ET : br_chars r ++ decoded (br_buffer r ++ u) = res ++ rest ++ decoded (br_buffer r' ++ u')) by (rewrite R2, !app_assoc, <- R1, ER; reflexivity).
    destruct res as [|y res'] eqn:ERes.
    + assert (NS : br_satisfied chars size (br_chars r') = false).
      { unfold br_satisfied. unfold res in ERes. destruct (chars <? 0) eqn:E1.
        - rewrite ERes. destruct (size <? 0) eqn:E2; [reflexivity|]. rewrite len_nil. lia.
        - rewrite slice_to_firstn in ERes by lia. destruct (br_chars r') as [|z l]; [rewrite len_nil; lia|]. destruct (Z.to_nat chars) eqn:E2; [lia | discriminate]. }
      destruct R8 as [R8|[-> ->]]; [congruence|]. replace (chars =? 0) with false by lia. cbn [br_buffer br_chars br_src] in *.
      assert (rest = []) as Erest.
      { destruct rest as [|z l] eqn:E1; [reflexivity|]. exfalso. unfold res in ERes. destruct (chars <? 0) eqn:E2; [specialize (HRest ltac:(lia)); discriminate|].
        rewrite ER in ERes. cbn [app] in ERes. rewrite slice_to_firstn in ERes by lia. destruct (Z.to_nat chars) eqn:E3; [lia | discriminate]. }
      rewrite Erest in *. cbn [app] in *. rewrite app_nil_r in *. rewrite ET.
      unfold decoder_flush. destruct (br_buffer r') as [|b0 b] eqn:EBuf.
      * left. eexists _, [], []. split; [reflexivity|]. split; [reflexivity|]. split; [exact AT|].
        split; [intros _ _; split; [reflexivity | rewrite <- HQ, <- R6; reflexivity]|]. split; [reflexivity|]. intros H0 _ _. change (len (@nil byte)) with 0; nia.
      * unfold buffer_decode. rewrite slice_to_all by lia. rewrite (decode_good _ R4).
        assert (Q4 : (len (b0 :: b) mod 4 =? 1) = bad) by (rewrite R6; exact HQ).
        destruct (Z.eqb_spec (len (b0 :: b) mod 4) 1) as [E1|E1]; cbn [bind].
        -- right. eexists. split; [reflexivity|]. split; [exact HC|].
           assert (EN : decoded (b0 :: b) = []) by (apply len_0_nil; rewrite len_decoded by exact R4; pose proof (len_nonneg (b0 :: b)); lia).
           split; [exact EN|]. split; [symmetry; exact Q4|]. rewrite EN in AT. exact AT.
        -- left. eexists _, (decoded (b0 :: b)), []. split; [reflexivity|]. split; [symmetry; apply app_nil_r|].
           split. { exists [], m'. cbn [br_chars br_buffer br_src app]. split; [exact R3|]. split; [constructor|]. split; [reflexivity|]. split; [exact Q4|]. split; [reflexivity|]. cbn [length] in *. lia. }
           assert (LD : 1 <= len (decoded (b0 :: b))) by (rewrite len_decoded by exact R4; rewrite !len_cons in *; pose proof (len_nonneg b); lia).
           split; [intros _ H; rewrite H in LD; discriminate LD || (cbn in LD; lia)|]. split; [reflexivity|].
           intros H0 _ _. rewrite len_decoded by exact R4. rewrite !len_cons in *. nia.
    + left. eexists _, (y :: res'), _. split; [reflexivity|]. split; [exact ET|]. split; [exact AT|].
      split; [discriminate|]. split; [exact HRest|]. intros H0 H1 H2. rewrite H2 in R9. specialize (R9 H0 H1 H0).
      rewrite ER, len_app in R9. pose proof (len_nonneg rest). lia.
Qed.

(** The reader as an input stream. *)
Definition b64_at {St} (P : St -> str -> nat -> Prop) (fuel : nat) (r : b64reader St) (t : str) (m : nat) : Prop :=
  m = O /\ br_chars r = [] /\ br_at P fuel false r t.

Lemma b64_feeds {St} (rd : source St) P fuel : feeds rd P 1 -> feeds (b64_source rd fuel) (b64_at P fuel) 3.
Proof.
  intros HF r t m size (-> & HN & HA) HZ. right. unfold b64_source.
  destruct (br_read_at rd P 1 fuel false r t size (-1) HF ltac:(lia) (or_introl HZ) HA) as [(r' & d & t' & E & ET & HA' & HE & HC & HB)|(r' & _ & _ & _ & B & _)]; [|discriminate B].
  rewrite E. exists d, t', r', O. split; [reflexivity|]. split; [exact ET|]. split; [split; [reflexivity|]; split; [apply HC; lia | exact HA']|].
  split; [lia|]. split; [intros H; apply HE; [lia | exact H]|]. intros H. specialize (HB H ltac:(lia) HN). lia.
Qed.

(** Successive reads of the Base64 reader. *)
Definition proper (c : Z * Z) : Prop := fst c <> 0 \/ snd c = 0.
Definition asking2 (cs : list (Z * Z)) : nat := length (filter (fun c => negb (snd c =? 0)) cs).

Lemma br_reads_at {St} (rd : source St) P k fuel bad : feeds rd P k -> 0 <= k -> forall cs r t, Forall proper cs -> br_at P fuel bad r t ->
  let xs := br_reads rd fuel r cs in
  (bad = false -> Forall (fun x => exists d, x = Ok (Some d)) xs) /\
  (bad = true -> Forall (fun x => (exists d, x = Ok (Some d)) \/ x = Raise Base64DecodingError) xs) /\
  (exists t', t = delivered xs ++ t') /\
  (delivered xs = t \/ (asking2 cs <= length (delivered xs))%nat) /\
  (forall cs1 c cs2 ys zs, cs = cs1 ++ c :: cs2 -> length ys = length cs1 -> snd c <> 0 -> xs = ys ++ Ok (Some []) :: zs -> bad = false /\ delivered ys = t) /\
  (forall ys e zs, xs = ys ++ Raise e :: zs -> bad = true /\ delivered ys = t) /\
  (bad = true -> (length t < asking2 cs)%nat -> In (Raise Base64DecodingError) xs).
Proof.
  intros HF HK. induction cs as [|[size chars] cs IH]; intros r t HP HA; cbv zeta; cbn [br_reads].
  - split; [constructor|]. split; [constructor|]. split; [exists t; reflexivity|]. split; [right; cbn; lia|].
    split; [intros [|? cs1] c cs2 ys zs E; discriminate|]. split; [intros [|? ?] e zs E; discriminate|]. intros _ H. cbn in H. lia.
  - inversion HP as [|? ? HP1 HP2]; subst. unfold proper in HP1. cbn [fst snd] in HP1.
    destruct (br_read_at rd P k fuel bad r t size chars HF HK HP1 HA) as [(r' & d & t' & E & -> & HA' & HE & _)|(r' & E & HC & -> & -> & HA')]; rewrite E.
    + destruct (IH r' t' HP2 HA') as (I1 & I2 & (t2 & I3) & I4 & I5 & I6 & I7). set (xs := br_reads rd fuel r' cs) in *.
      assert (ED : delivered (Ok (Some d) :: xs) = d ++ delivered xs) by reflexivity. rewrite ED.
      split; [intros B; constructor; [eauto | apply I1; exact B]|]. split; [intros B; constructor; [left; eauto | apply I2; exact B]|].
      split; [exists t2; rewrite I3 at 1; apply app_assoc|]. unfold asking2 in *. cbn [filter snd].
      split. { destruct (Z.eqb_spec chars 0) as [HC0|HC0]; cbn [negb length].
        - destruct I4 as [I4|I4]; [left; rewrite I4; reflexivity | right; rewrite app_length; lia].
        - destruct d as [|x d]; [destruct (HE HC0 eq_refl) as [Et _]; cbn [app] in *; left; rewrite Et in I3; symmetry in I3; apply app_eq_nil in I3 as [-> _]; symmetry; exact Et|].
          destruct I4 as [I4|I4]; [left; rewrite I4; reflexivity | right; cbn [app length]; rewrite app_length; lia]. }
      split. { intros cs1 c cs2 ys zs E1 L1 HC0 E2. destruct cs1 as [|c1 cs1]; destruct ys as [|y ys]; try discriminate L1.
        - cbn [app] in E1, E2. injection E1 as <- <-. injection E2 as -> <-. destruct (HE HC0 eq_refl) as [Et B]. split; [exact B|]. symmetry. exact Et.
        - cbn [app] in E1, E2. injection E1 as <- E1. injection E2 as <- E2. destruct (I5 cs1 c cs2 ys zs E1 ltac:(injection L1; auto) HC0 E2) as [B ET].
          split; [exact B|]. change (delivered (Ok (Some d) :: ys)) with (d ++ delivered ys). rewrite ET. reflexivity. }
      split. { intros [|y ys] e zs E2; cbn [app] in E2; [discriminate|]. injection E2 as <- E2. destruct (I6 ys e zs E2) as [B ET].
        split; [exact B|]. change (delivered (Ok (Some d) :: ys)) with (d ++ delivered ys). rewrite ET. reflexivity. }
      intros B HL. right. apply I7; [exact B|]. rewrite app_length in HL. destruct (Z.eqb_spec chars 0) as [HC0|HC0]; cbn [negb length] in HL; [lia|].
      destruct d as [|x d]; [destruct (HE HC0 eq_refl) as [_ B2]; congruence | cbn [length] in HL; lia].
    + destruct (IH r' [] HP2 HA') as (I1 & I2 & (t2 & I3) & I4 & I5 & I6 & I7). set (xs := br_reads rd fuel r' cs) in *.
      symmetry in I3. apply app_eq_nil in I3 as [I3 _].
      assert (ED : delivered (Raise Base64DecodingError :: xs) = []) by exact I3. rewrite ED.
      split; [discriminate|]. split; [intros B; constructor; [right; reflexivity | apply I2; exact B]|]. split; [exists []; reflexivity|].
      split; [left; reflexivity|].
      split. { intros cs1 c cs2 ys zs E1 L1 HC0 E2. destruct cs1 as [|c1 cs1]; destruct ys as [|y ys]; try discriminate L1; cbn [app] in E1, E2; [discriminate|].
        injection E1 as <- E1. injection E2 as <- E2. destruct (I5 cs1 c cs2 ys zs E1 ltac:(injection L1; auto) HC0 E2) as [B _]. discriminate B. }
      split. { intros [|y ys] e zs E2; cbn [app] in E2; [split; reflexivity|]. injection E2 as <- E2. destruct (I6 ys e zs E2) as [B ET].
        split; [exact B|]. exact ET. }
      intros _ _. left. reflexivity.
Qed.

Lemma br_new_at {St} (P : St -> str -> nat -> Prop) fuel s u m : P s u m -> Forall good_char u -> (m + length u < fuel)%nat ->
  br_at P fuel (len u mod 4 =? 1) (br_new s) (decoded u).
Proof. intros HP HG HF. exists u, m. cbn [br_new br_src br_buffer br_chars app]. repeat split; assumption. Qed.

(** ** After an error *)

Lemma dr_read_drained {St} (rd : source St) P k fuel d s chars : feeds rd P k -> 0 <= k -> drained P fuel d s -> dr_dec d = [] ->
  exists d' s', dr_read rd fuel d s chars = (Ok (Some []), (d', s')) /\ drained P fuel d' s' /\ dr_dec d' = [].
Proof.
  intros HF HK0 (HO & (a & HKey) & (h & HH) & (c & HC) & HL & m & HP & HFu) HD.
  rewrite (dr_read_body rd fuel d s chars a h c HO HKey HH HC). unfold dr_body.
  destruct (dr_fill_feeds rd P k fuel HF HK0 fuel d s [] m HP) as (x & data & avail & s' & t' & m' & E & ET & HP' & HM & R1 & R2);
    [cbn [length]; lia | cbn [length]; lia|].
  symmetry in ET. apply app_eq_nil in ET as [-> ->]. rewrite E. rewrite app_nil_r in *.
  destruct avail.
  { destruct (R2 eq_refl) as (HN & _ & keep & EK & LK). exfalso. rewrite EK, len_app in HL. pose proof (len_nonneg data). lia. }
  destruct (R1 eq_refl) as [_ ->]. change (-20) with (Z.opp 20).
  assert (E0 : slice_to (dr_enc d) (Z.opp 20) = []).
  { rewrite slice_to_neg by lia. replace (length (dr_enc d) - Z.to_nat 20)%nat with O by (unfold len in HL; lia). reflexivity. }
  rewrite E0. change (len (@nil byte) =? 0) with true. cbv iota. cbn [finish].
  assert (ES : set_enc d (dr_enc d) = d) by (destruct d; reflexivity). rewrite ES.
  destruct (dr_deliver_spec d chars false) as (r & rest & EDl & EDc & _). rewrite HD in EDc. symmetry in EDc. apply app_eq_nil in EDc as [-> ->].
  rewrite EDl. exists (set_dec d []), s'. split; [reflexivity|]. split; [|reflexivity].
  unfold drained. cbn [set_dec dr_closed dr_key dr_hmac dr_cipher dr_enc].
  split; [exact HO|]. split; [eauto|]. split; [eauto|]. split; [eauto|]. split; [exact HL|]. exists m'. split; [exact HP' | lia].
Qed.

Lemma mid_out_bound {St} P fuel kb hb hdr iv X d (s : St) out : aes_size_ok kb -> len iv = 16 ->
  mid P fuel kb hb hdr iv X d s out -> (length out <= length X)%nat.
Proof.
  intros HS HI [_ _ (c & cst & t & m & _ & _ & _ & -> & _ & _ & _ & HD & _)].
  destruct (len_decrypt _ _ _ _ (AES_new_ok kb iv _ (AES_new_iff kb iv HS HI)) HD) as [L _].
  unfold len in L. rewrite !app_length in *. lia.
Qed.

(** Reading a stream that is not authentic to the end: one exception, then a clean end. *)
Lemma forged_then_clean {St} (rd : source St) P k fuel ks a kb hb hdr iv X : feeds rd P k -> 0 <= k <= 3 ->
  addressed ks a kb hb hdr iv X -> ~ authentic hb hdr iv X ->
  forall n d s out, (length X < length out + n)%nat -> dr_dec d = [] -> ready P fuel ks kb hb hdr iv X d s out ->
  exists j xs, dr_reads rd fuel d s (repeat (-1) j) = xs ++ [Raise (bad_exn X); Ok (Some [])] /\ Forall (fun x => is_ok x = true) xs.
Proof.
  intros HF HK HA HN. assert (HS : aes_size_ok kb) by apply HA. assert (HI : len iv = 16) by apply HA.
  induction n as [|n IH]; intros d s out HL HD HR.
  - exfalso. destruct HR as [(-> & -> & _)|[HM|HE]]; [cbn [length] in HL; lia | pose proof (mid_out_bound _ _ _ _ _ _ _ _ _ _ HS HI HM); lia | destruct HE; contradiction].
  - destruct (dr_read_ready rd P k fuel ks a kb hb hdr iv X d s out (-1) HF HK HA HR) as [(r & avail & d' & s' & E & HE & _ & HZ)|(d' & s' & E & _ & HDr & HDec)].
    + destruct avail; cbn [at_or_end] in HE; [|destruct HE; contradiction].
      assert (dr_dec d' = []) as HD'.
      { unfold dr_read in E. destruct (dr_closed d); [discriminate|].
        destruct (match dr_key d with Some _ => _ | None => _ end) as [[av|] [d1 s1]]; [|discriminate].
        destruct (match av with true => _ | false => _ end) as [[av1|] [d2 s2]]; [|discriminate].
        destruct (match av1 with true => _ | false => _ end) as [[av2|] [d3 s3]]; [|discriminate].
        cbn [dr_deliver Z.ltb Z.compare] in E. unfold dr_deliver in E. cbn [Z.ltb Z.compare] in E. apply pair_inj in E as [_ E]. apply pair_inj in E as [<- _]. reflexivity. }
      destruct (IH d' s' (out ++ r)) as (j & xs & EX & HFa); [|exact HD' | right; left; exact HE|].
      { rewrite app_length. destruct r as [|x r]; [destruct (HZ ltac:(lia) eq_refl); discriminate | cbn [length]; lia]. }
      exists (S j), (Ok (answer r true) :: xs). cbn [repeat dr_reads]. rewrite E. cbn [fst snd]. rewrite EX. split; [reflexivity|]. constructor; [reflexivity | exact HFa].
    + rewrite HD in HDec. destruct (dr_read_drained rd P k fuel d' s' (-1) HF ltac:(lia) HDr HDec) as (d2 & s2 & E2 & _).
      exists 2%nat, []. cbn [repeat dr_reads]. rewrite E. cbn [fst snd]. rewrite E2. split; [reflexivity | constructor].
Qed.

(** ** Streams too short to hold a ciphertext *)
Ltac dsr := unfold set_enc, set_hmac, set_key, set_cipher; cbn [dr_key dr_hmac dr_cipher dr_enc dr_dec dr_ks dr_closed].

Lemma short_stream {St} (rd : source St) P k fuel ks t s m chars : feeds rd P k -> 0 <= k <= 3 ->
  P s t m -> (m + length t < fuel)%nat -> len t <= 41 ->
  len t < 5 \/ (exists a kb hb, ParseHeader ks (slice_to t 5) = Ok (KAes a) /\ aes_material a kb hb /\ aes_size_ok kb) ->
  fst (dr_read rd fuel (CreateDecryptingStreamReader ks) s chars) = Ok (Some []).
Proof.
  intros HF HK HP HFu HL HH.
  assert (DN : forall d, dr_dec d = [] -> fst (dr_deliver d chars false) = Some []).
  { intros d HD. destruct (dr_deliver_spec d chars false) as (r & rest & E & ED & _). rewrite E. cbn [fst].
    rewrite HD in ED. symmetry in ED. apply app_eq_nil in ED as [-> _]. reflexivity. }
  destruct (ReadBytes_feeds rd P k HF ltac:(lia) fuel s t m 5 true [] HP) as (x & av & s1 & t1 & m1 & E & -> & HP1 & HM & R1 & R2 & R3);
    [reflexivity | exact HFu|]. cbn [app] in *.
  unfold dr_read. unfold CreateDecryptingStreamReader. cbn [dr_closed dr_key]. unfold dr_CreateKey. cbn [dr_enc]. change (HEADER_SIZE - len (@nil byte)) with 5. rewrite E.
  cbn [app]. dsr. change HEADER_SIZE with 5.
  destruct av.
  2:{ destruct (R1 eq_refl) as [_ L]. replace (5 <=? len x) with false by lia. cbn [dr_key dr_ks].
      pose proof (DN (MkDsr ks None None None x [] false) eq_refl) as D. destruct (dr_deliver _ _ _) as [y d2]. cbn [fst] in *. rewrite D. reflexivity. }
  destruct (R2 eq_refl) as [LX5|[C _]]; [|discriminate]. replace (5 <=? len x) with true by lia.
  destruct (split_at x 5) as (hdr & x2 & -> & L1); [lia|]. rewrite slice_to_app, slice_from_app by lia.
  destruct HH as [HH|(a & kb & hb & EP & [Ek Eh] & HS)]; [exfalso; rewrite !len_app in *; pose proof (len_nonneg x2); pose proof (len_nonneg t1); lia|].
  rewrite <- app_assoc, slice_to_app in EP by lia. rewrite EP. dsr. cbn [key_hmac_key bind]. unfold CreateStreamable. rewrite Eh. cbn [bind].
  dsr. unfold dr_CreateCipher. dsr. change block_size with 16.
  rewrite !len_app in *. pose proof (len_nonneg t1).
  destruct (ReadBytes_feeds rd P k HF ltac:(lia) fuel s1 t1 m1 (16 - len x2) true [] HP1) as (y & av & s2 & t2 & m2 & E2 & -> & HP2 & HM2 & Q1 & Q2 & _);
    [rewrite len_nil; lia | rewrite !app_length in *; lia|]. cbn [app] in *. rewrite E2. dsr.
  destruct av.
  2:{ destruct (Q1 eq_refl) as [_ L]. replace (16 <=? len (x2 ++ y)) with false by (rewrite len_app; lia). cbn [dr_key dr_cipher dr_ks dr_hmac dr_dec dr_closed].
      match goal with |- context [dr_deliver ?d _ _] => pose proof (DN d eq_refl) as D; destruct (dr_deliver d chars false) as [z d2] end. cbn [fst] in *. rewrite D. reflexivity. }
  destruct (Q2 eq_refl) as [LY|[C _]]; [|discriminate]. replace (16 <=? len (x2 ++ y)) with true by (rewrite len_app; lia).
  destruct (split_at (x2 ++ y) 16) as (iv & y2 & EY & L2); [rewrite len_app; lia|]. rewrite EY, slice_to_app, slice_from_app by lia.
  rewrite Ek. cbn [bind]. rewrite (AES_new_iff kb iv HS L2). dsr.
  unfold dr_body. destruct (dr_fill_feeds rd P k fuel HF ltac:(lia) fuel (MkDsr ks (Some (KAes a)) (Some (hs_update (hs_update (MkHs hb []) hdr) iv)) (Some (MkCipher (key_schedule kb) iv)) y2 [] false) s2 t2 m2 HP2)
    as (z & data & avail & s' & t' & m' & E3 & -> & HP' & HM' & S1 & S2); [rewrite !app_length in *; lia | rewrite !app_length in *; lia|].
  rewrite E3. cbn [dr_enc] in *.
  pose proof (f_equal len EY) as LE. rewrite !len_app in *.
  destruct avail.
  { destruct (S2 eq_refl) as (HNN & _ & keep & EK & LK). exfalso. apply (f_equal len) in EK. rewrite !len_app in EK. pose proof (len_nonneg data). pose proof (len_nonneg t').
    destruct data; [contradiction|]. rewrite len_cons in *. pose proof (len_nonneg data). lia. }
  destruct (S1 eq_refl) as [-> ->]. change (-20) with (Z.opp 20).
  assert (E0 : slice_to (y2 ++ z) (Z.opp 20) = []).
  { rewrite slice_to_neg by lia. replace (length (y2 ++ z) - Z.to_nat 20)%nat with O by (rewrite app_length; unfold len in *; lia). reflexivity. }
  rewrite E0. change (len (@nil byte) =? 0) with true. cbv iota.
  match goal with |- context [dr_deliver ?d _ _] => pose proof (DN d eq_refl) as D; destruct (dr_deliver d chars false) as [w d2] end. cbn [fst] in *. rewrite D. reflexivity.
Qed.
