(** * Props_Stream: properties C51-C57 (streaming encryption, decryption and Base64). *)
From Coq Require Import Strings.String.
From Coq Require Import List ZArith NArith Bool Lia ZifyBool ZifyNat ZifyN.
From Coq.Init Require Import Byte.
From Verif Require Import PyBase PyFacts Base64 Base64Facts Sha1 Util UtilFacts Aes AesFacts KeyInfo SymKeys SymFacts AsymSpec AsymKeys AsymFacts
  Keys KeysFacts KeyData Keyczar KeyRing KeyczarFacts ErrFacts Session Props_Util Props_Sym Props_Keyset Props_Sign Props_Disk Props_Session Streams StreamFacts.
Import ListNotations.
Local Open Scope Z_scope.
Ltac Zify.zify_post_hook ::= idtac.

(** ** Vocabulary *)

(** [ks] encrypts with the AES key [k], whose bytes are usable. *)
Definition aes_primary (ks : keyset) (k : aeskey) (kb hb : str) : Prop :=
  signer_of ks (KAes k) /\ aes_material k kb hb /\ aes_size_ok kb.

Lemma aes_primary_Encrypt e ks k kb hb p : aes_primary ks k kb hb ->
  exists hdr, aes_header k = Ok hdr /\ len hdr = 5 /\ primary_key ks = Ok (KAes k) /\
    let m := hdr ++ RandBytes (e_tape e) 16 ++ aes_body kb (RandBytes (e_tape e) 16) p in
    len (aes_body kb (RandBytes (e_tape e) 16) p) = 16 * (len p / 16 + 1) /\ Encrypt e ks p None = Ok (m ++ hmac_sha1 hb m).
Proof.
  intros (HG & HM & HS). destruct (signer_primary ks (KAes k) HG) as [EP _].
  destruct (AesKey_Encrypt_ok (e_lib e) k (e_tape e) p kb hb HM HS) as (hdr & EH & LH & LB & EE).
  exists hdr. split; [exact EH|]. split; [exact LH|]. split; [exact EP|]. cbv zeta. split; [exact LB|].
  unfold Encrypt. rewrite EP. cbn [bind key_Encrypt]. rewrite EE. reflexivity.
Qed.

(** ** C51: the writer *)

Lemma wrun_app w cs1 cs2 : wrun w (cs1 ++ cs2) =
  (fst (wrun (fst (wrun w cs1)) cs2), snd (wrun w cs1) ++ snd (wrun (fst (wrun w cs1)) cs2)).
Proof.
  revert w. induction cs1 as [|c cs1 IH]; intros w; cbn [app wrun].
  - cbn [fst snd]. destruct (wrun w cs2) as [w2 rs]. reflexivity.
  - destruct (wstep w c) as [w1 r]. rewrite IH. destruct (wrun w1 cs1) as [w2 rs]. reflexivity.
Qed.

Lemma wrun_writes kb hb hdr iv b64 ds : aes_size_ok kb -> len iv = 16 -> forall w p, ew_at w b64 kb hb hdr iv p ->
  exists w', wrun w (map CWrite ds) = (w', map (fun _ => Ok tt) ds) /\ ew_at w' b64 kb hb hdr iv (p ++ concat ds).
Proof.
  intros HS HI. induction ds as [|d ds IH]; intros w p HA; cbn [map wrun concat].
  - exists w. rewrite app_nil_r. split; [reflexivity | exact HA].
  - cbn [wstep]. destruct (ew_write_at w b64 kb hb hdr iv p d HS HI HA) as (w1 & E & HA1). rewrite E.
    destruct (IH w1 (p ++ d) HA1) as (w2 & E2 & HA2). rewrite E2. exists w2. rewrite <- app_assoc in HA2. split; [reflexivity | exact HA2].
Qed.

Lemma stream_writer e ks k kb hb b64 : aes_primary ks k kb hb ->
  exists hdr w, aes_header k = Ok hdr /\ CreateEncryptingStreamWriter ks (e_tape e) b64 = Ok w /\
    ew_at w b64 kb hb hdr (RandBytes (e_tape e) 16) [].
Proof.
  intros (HG & HM & HS). destruct (signer_primary ks (KAes k) HG) as [EP _]. unfold CreateEncryptingStreamWriter. rewrite EP. cbn [bind].
  destruct (EncryptingStreamWriter_at k kb hb (e_tape e) (if b64 then B64Sink bw_new else RawSink []) HM HS) as (hdr & w & EH & EW & HA).
  { destruct b64; [apply bw_new_holds | reflexivity]. }
  exists hdr, w. split; [exact EH|]. split; [exact EW|]. destruct b64; exact HA.
Qed.

(** Whatever the pieces, after [flush] the output holds the ciphertext [Encrypt] makes of the whole data with
    the same random bytes (in Base64 with the default encoder). *)
Theorem C51_writes_then_flush : forall e ks k kb hb b64 ds, aes_primary ks k kb hb ->
  exists w w' ct, CreateEncryptingStreamWriter ks (e_tape e) b64 = Ok w /\
    wrun w (map CWrite ds ++ [CFlush]) = (w', map (fun _ => Ok tt) ds ++ [Ok tt]) /\
    Encrypt e ks (concat ds) (if b64 then b64_encoder else None) = Ok ct /\ ew_out w' = ct.
Proof.
  intros e ks k kb hb b64 ds HA. destruct (stream_writer e ks k kb hb b64 HA) as (hdr & w & EH & EW & AT).
  destruct (aes_primary_Encrypt e ks k kb hb (concat ds) HA) as (hdr2 & EH2 & LH & EP & LB & EE). rewrite EH in EH2. apply Ok_inj in EH2 as <-.
  assert (HI : len (RandBytes (e_tape e) 16) = 16) by (apply len_RandBytes; lia). destruct HA as (_ & _ & HS).
  destruct (wrun_writes kb hb hdr _ b64 ds HS HI w [] AT) as (w1 & E1 & AT1). cbn [app] in AT1.
  destruct (ew_flush_at w1 b64 kb hb hdr _ (concat ds) HS HI AT1) as (w2 & E2 & EO & _).
  exists w, w2. rewrite wrun_app, E1. cbn [fst snd wrun wstep]. rewrite E2. cbn [fst snd]. eexists.
  split; [exact EW|]. split; [reflexivity|]. split; [|exact EO].
  destruct b64; [|exact EE]. unfold Encrypt in *. rewrite EP in *. cbn [bind apply_codec] in *.
  destruct (key_Encrypt e (KAes k) (concat ds)) as [c|]; cbn [bind apply_codec] in *; [|discriminate]. apply Ok_inj in EE as ->. reflexivity.
Qed.
Print Assumptions C51_writes_then_flush.

(** Hence any key set that holds the key decrypts the output to the data written. *)
Theorem C51_output_decrypts : forall e ks k kb hb b64 ds ks' n', aes_primary ks k kb hb -> holds ks' n' (KAes k) ->
  exists w w', CreateEncryptingStreamWriter ks (e_tape e) b64 = Ok w /\
    wrun w (map CWrite ds ++ [CFlush]) = (w', map (fun _ => Ok tt) ds ++ [Ok tt]) /\
    Decrypt ks' (ew_out w') (if b64 then b64_decoder else None) = Ok (concat ds).
Proof.
  intros e ks k kb hb b64 ds ks' n' HA HV. destruct (C51_writes_then_flush e ks k kb hb b64 ds HA) as (w & w' & ct & EW & ER & EE & EO).
  exists w, w'. split; [exact EW|]. split; [exact ER|]. rewrite EO. destruct HA as ((HR & n & HP) & HM & HS).
  destruct (aes_sets_agree e ks ks' n n' k kb hb (concat ds) HR HP HV HM HS) as (raw & E1 & E2 & D1 & D2).
  destruct b64; [rewrite E2 in EE | rewrite E1 in EE]; apply Ok_inj in EE as <-; assumption.
Qed.
Print Assumptions C51_output_decrypts.

(** Only AES key sets have a streaming writer: with an RSA key, which [Encrypt] accepts, making one fails. *)
Theorem C51_rsa_sets_cannot_stream : forall ks k r b64, encrypts_with ks k ->
  CreateEncryptingStreamWriter ks r b64 = Raise AttributeError.
Proof.
  intros ks k r b64 [HG|HG]; destruct (signer_primary ks _ HG) as [EP _]; unfold CreateEncryptingStreamWriter; rewrite EP; reflexivity.
Qed.
Print Assumptions C51_rsa_sets_cannot_stream.

(** ** C54: the Base64 writer *)

Definition bw_writes (ds : list str) (w : b64writer) : b64writer := fold_left bw_write ds w.

Lemma bw_writes_holds ds : forall w s, bw_holds w s -> bw_holds (bw_writes ds w) (s ++ concat ds).
Proof.
  induction ds as [|d ds IH]; intros w s H; cbn [bw_writes fold_left concat]; [rewrite app_nil_r; exact H|].
  rewrite app_assoc. apply IH, bw_write_holds, H.
Qed.

(** After any writes and a flush the stream holds the Base64 of the whole data; flushing again adds nothing. *)
Theorem C54_writes_then_flush : forall ds n,
  bw_out (Nat.iter (S n) bw_flush (bw_writes ds bw_new)) = Base64WSEncode (concat ds).
Proof.
  intros ds n. pose proof (bw_writes_holds ds bw_new [] bw_new_holds) as H. cbn [app] in H.
  destruct (bw_flush_out _ _ H) as [E1 E2].
  assert (F : forall m w, bw_buffer w = [] -> bw_buffer (Nat.iter m bw_flush w) = [] /\ bw_out (Nat.iter m bw_flush w) = bw_out w).
  { induction m as [|m IH]; intros w Hw; [split; [exact Hw | reflexivity]|]. destruct (IH w Hw) as [I1 I2]. change (Nat.iter (S m) bw_flush w) with (bw_flush (Nat.iter m bw_flush w)).
    rewrite <- I2. revert I1. generalize (Nat.iter m bw_flush w). intros [b o]. cbn [bw_buffer bw_out]. intros ->. split; reflexivity. }
  assert (S1 : forall m w, Nat.iter (S m) bw_flush w = Nat.iter m bw_flush (bw_flush w)).
  { induction m as [|m IH]; intros w; [reflexivity|]. change (Nat.iter (S (S m)) bw_flush w) with (bw_flush (Nat.iter (S m) bw_flush w)). rewrite IH. reflexivity. }
  rewrite S1. destruct (F n (bw_flush (bw_writes ds bw_new)) E2) as [_ ->]. exact E1.
Qed.
Print Assumptions C54_writes_then_flush.

(** Between writes the stream holds a prefix of the final text, and lacks at most the last three characters. *)
Theorem C54_at_most_three_characters_pending : forall ds,
  exists pending, Base64WSEncode (concat ds) = bw_out (bw_writes ds bw_new) ++ pending /\ len pending <= 3.
Proof.
  intros ds. pose proof (bw_writes_holds ds bw_new [] bw_new_holds) as H. cbn [app] in H.
  destruct H as (q & E & L & O). rewrite E, encode_app by exact L. rewrite O. eexists. split; [reflexivity|].
  assert (HB : len (bw_buffer (bw_writes ds bw_new)) < 3).
  { unfold bw_writes. destruct ds as [|d ds] using rev_ind; [reflexivity|]. rewrite fold_left_app. cbn [fold_left]. apply bw_buffer_small. }
  rewrite len_encode. pose proof (len_nonneg (bw_buffer (bw_writes ds bw_new))). Ltac Zify.zify_post_hook ::= Z.div_mod_to_equations. lia.
Qed.
Ltac Zify.zify_post_hook ::= idtac.
Print Assumptions C54_at_most_three_characters_pending.

(** ** C52: reading an encrypted stream *)

(** What a sequence of [read(chars)] calls, [chars] running through [cs], should return for the plaintext [p]:
    no exception, never more than asked for, pieces of [p] in order, the empty string (when data was asked
    for) only when all of [p] was delivered, and all of [p] after enough calls; None is only returned when
    nothing was asked for. *)
Definition faithful (p : str) (cs : list Z) (xs : list (res (option str))) : Prop :=
  Forall2 (fun c x => exists o, x = Ok o /\ (o = None -> c = 0) /\ forall r, o = Some r -> 0 <= c -> len r <= c) cs xs /\
  (exists rest, p = delivered xs ++ rest) /\
  (forall cs1 c cs2 ys zs, cs = cs1 ++ c :: cs2 -> length ys = length cs1 -> c <> 0 -> xs = ys ++ Ok (Some []) :: zs -> delivered ys = p) /\
  ((length p < asking cs)%nat -> delivered xs = p).

Lemma dr_reads_app {St} (rd : source St) fuel cs1 cs2 : forall d s,
  dr_reads rd fuel d s (cs1 ++ cs2) = dr_reads rd fuel d s cs1 ++ dr_reads rd fuel (fst (dr_after rd fuel d s cs1)) (snd (dr_after rd fuel d s cs1)) cs2.
Proof.
  induction cs1 as [|c cs1 IH]; intros d s; cbn [app dr_reads dr_after]; [reflexivity|].
  destruct (dr_read rd fuel d s c) as [x ds]. cbn [snd]. rewrite IH. reflexivity.
Qed.

Lemma length_dr_reads {St} (rd : source St) fuel cs : forall d s, length (dr_reads rd fuel d s cs) = length cs.
Proof. induction cs as [|c cs IH]; intros d s; cbn [dr_reads]; [reflexivity|]. destruct (dr_read rd fuel d s c). cbn [length]. rewrite IH. reflexivity. Qed.

Lemma reads_bounded {St} (rd : source St) P k fuel ks a kb hb hdr iv X : feeds rd P k -> 0 <= k <= 3 ->
  addressed ks a kb hb hdr iv X -> authentic hb hdr iv X -> forall cs d s out, ready P fuel ks kb hb hdr iv X d s out ->
  Forall2 (fun c x => exists o, x = Ok o /\ (o = None -> c = 0) /\ forall r, o = Some r -> 0 <= c -> len r <= c) cs (dr_reads rd fuel d s cs).
Proof.
  intros HF HK HA HAu. induction cs as [|c cs IH]; intros d s out HR; cbn [dr_reads]; [constructor|].
  destruct (dr_read_ready rd P k fuel ks a kb hb hdr iv X d s out c HF HK HA HR) as [(r & avail & d' & s' & E & HE & HL & HZ)|(d' & s' & E & HN & _)]; [|contradiction].
  rewrite E. cbn [fst snd]. constructor; [|apply (IH d' s' (out ++ r)), (at_or_end_ready P fuel ks kb hb hdr iv X d' s' (out ++ r) avail HE)].
  exists (answer r avail). split; [reflexivity|]. unfold answer. split.
  - destruct r; [|discriminate]. destruct avail; [|discriminate]. intros _. destruct (Z.eq_dec c 0) as [|HC]; [assumption|]. destruct (HZ HC eq_refl). discriminate.
  - intros r' ER HC. destruct r as [|x r]; [destruct avail; [discriminate|] |]; apply Some_inj in ER as <-; exact (HL HC).
Qed.

Lemma ready_faithful {St} (rd : source St) P k fuel ks a kb hb hdr iv X p s m cs : feeds rd P k -> 0 <= k <= 3 ->
  addressed ks a kb hb hdr iv X -> authentic hb hdr iv X -> carries kb iv X p ->
  P s (hdr ++ iv ++ X) m -> (m + length (hdr ++ iv ++ X) < fuel)%nat ->
  faithful p cs (dr_reads rd fuel (CreateDecryptingStreamReader ks) s cs).
Proof.
  intros HF HK HA HAu HCa HP HFu. set (d := CreateDecryptingStreamReader ks).
  assert (HR : ready P fuel ks kb hb hdr iv X d s []) by (left; repeat split; exists m; split; assumption).
  assert (HS : aes_size_ok kb) by apply HA. assert (HI : len iv = 16) by apply HA.
  split; [apply (reads_bounded rd P k fuel ks a kb hb hdr iv X HF HK HA HAu cs d s [] HR)|].
  destruct (dr_reads_ready rd P k fuel ks a kb hb hdr iv X HF HK HA cs d s [] HR) as [H1 H2]. specialize (H2 HAu).
  split. { destruct (H1 H2) as (d' & s' & HR'). apply (ready_prefix P fuel ks kb hb hdr iv X d' s' _ p HS HI HR' HCa). }
  split.
  - intros cs1 c cs2 ys zs -> L HC E. rewrite E in H2. apply Forall_app in H2 as [H2 _].
    replace (cs1 ++ c :: cs2) with ((cs1 ++ [c]) ++ cs2) in E by (rewrite <- app_assoc; reflexivity). rewrite dr_reads_app in E.
    replace (ys ++ Ok (Some []) :: zs) with ((ys ++ [Ok (Some [])]) ++ zs) in E by (rewrite <- app_assoc; reflexivity).
    assert (E2 : dr_reads rd fuel d s (cs1 ++ [c]) = ys ++ [Ok (Some [])]).
    { destruct (app_inv_len _ _ _ _ E) as [E2 _]; [|exact E2]. unfold len. rewrite length_dr_reads, !app_length. cbn [length]. lia. }
    destruct (clean_end rd P k fuel ks a kb hb hdr iv X cs1 c d s [] ys HF HK HA HR HC E2 H2) as (d' & s' & HE & HD).
    pose proof (ended_plain P fuel kb hb hdr iv X d' s' _ p HS HI HE HCa) as EP. rewrite HD, app_nil_r in EP. symmetry. exact EP.
  - intros HL. destruct (enough_reads rd P k fuel ks a kb hb hdr iv X p HF HK HA HAu HCa cs d s [] HR) as [E|E]; [exact E|].
    destruct (H1 H2) as (d' & s' & HR'). destruct (ready_prefix P fuel ks kb hb hdr iv X d' s' _ p HS HI HR' HCa) as (rest & EP). cbn [app] in EP.
    exfalso. rewrite EP, app_length in HL. lia.
Qed.

(** What [Encrypt] makes is addressed to the key, authentic and carries the data. *)
Lemma encrypted_stream e ks k kb hb p raw ks' n' : aes_primary ks k kb hb -> holds ks' n' (KAes k) -> Encrypt e ks p None = Ok raw ->
  exists hdr X, raw = hdr ++ RandBytes (e_tape e) 16 ++ X /\ addressed ks' k kb hb hdr (RandBytes (e_tape e) 16) X /\
    authentic hb hdr (RandBytes (e_tape e) 16) X /\ carries kb (RandBytes (e_tape e) 16) X p.
Proof.
  intros HA HV EE. destruct (aes_primary_Encrypt e ks k kb hb p HA) as (hdr & EH & LH & EP & LB & EE2). rewrite EE in EE2. apply Ok_inj in EE2 as ->.
  destruct HA as (_ & HM & HS). assert (HI : len (RandBytes (e_tape e) 16) = 16) by (apply len_RandBytes; lia).
  set (iv := RandBytes (e_tape e) 16) in *. set (body := aes_body kb iv p) in *. set (tag := hmac_sha1 hb (hdr ++ iv ++ body)) in *.
  assert (LT : len tag = 20) by apply len_hmac. pose proof (len_nonneg p).
  assert (M : len body mod 16 = 0) by (rewrite LB; rewrite Z.mul_comm; apply Z.mod_mul; lia).
  exists hdr, (body ++ tag). split; [rewrite <- !app_assoc; reflexivity|]. split; [|split].
  - split; [exact LH|]. split; [exact HI|]. split; [rewrite len_app, LT, LB; pose proof (Z.div_pos (len p) 16 ltac:(lia) ltac:(lia)); lia|].
    split; [|split; assumption]. destruct (aes_header_ok k kb hb HM) as (id & EH2 & L4 & HH & _). rewrite EH in EH2. apply Ok_inj in EH2 as ->.
    apply (header_find ks' n' (KAes k) id HV HH L4).
  - exists body, tag. repeat split; assumption.
  - destruct (cipher_decrypt_body kb iv p HS HI) as (c' & ED). exists body, tag, c'. repeat split; assumption.
Qed.

(** Reading a raw ciphertext from any channel. *)
Theorem C52_any_schedule : forall e ks k kb hb p raw ks' n' plan fuel cs,
  aes_primary ks k kb hb -> holds ks' n' (KAes k) -> Encrypt e ks p None = Ok raw ->
  (length plan + length raw < fuel)%nat ->
  faithful p cs (dr_reads chan_read fuel (CreateDecryptingStreamReader ks') (MkChan plan raw) cs).
Proof.
  intros e ks k kb hb p raw ks' n' plan fuel cs HA HV EE HFu.
  destruct (encrypted_stream e ks k kb hb p raw ks' n' HA HV EE) as (hdr & X & -> & HAd & HAu & HCa).
  apply (ready_faithful chan_read chan_at 1 fuel ks' k kb hb hdr _ X p _ (length plan) cs chan_feeds ltac:(lia) HAd HAu HCa); [split; reflexivity | exact HFu].
Qed.
Print Assumptions C52_any_schedule.

(** The characters Base64 texts are made of are decoded one by one. *)
Lemma alphabet_good : forall c, In c url_alphabet -> good_char c.
Proof.
  assert (H : Forall good_char url_alphabet).
  { repeat (apply Forall_cons; [repeat split; try reflexivity; eexists; vm_compute; reflexivity|]). constructor. }
  intros c Hc. rewrite Forall_forall in H. apply H, Hc.
Qed.

Lemma encode_good s : Forall good_char (Base64WSEncode s).
Proof. eapply Forall_impl; [apply alphabet_good | apply C02_base64_canonical]. Qed.

Lemma decoded_encode s : (len (Base64WSEncode s) mod 4 =? 1) = false /\ decoded (Base64WSEncode s) = s.
Proof.
  pose proof (decode_good (Base64WSEncode s) (encode_good s)) as E. rewrite base64_roundtrip in E.
  destruct (_ =? 1); [discriminate|]. apply Ok_inj in E. split; [reflexivity | symmetry; exact E].
Qed.

(** Reading the Base64 form through the default decoder. *)
Theorem C52_any_schedule_base64 : forall e ks k kb hb p ct ks' n' plan fuel fuel' cs,
  aes_primary ks k kb hb -> holds ks' n' (KAes k) -> Encrypt e ks p b64_encoder = Ok ct ->
  (length plan + length ct < fuel')%nat -> (length ct < fuel)%nat ->
  faithful p cs (dr_reads (b64_source chan_read fuel') fuel (CreateDecryptingStreamReader ks') (br_new (MkChan plan ct)) cs).
Proof.
  intros e ks k kb hb p ct ks' n' plan fuel fuel' cs HA HV EE HFu1 HFu2.
  destruct (Encrypt_b64 e ks p ct EE) as (raw & ER & ->).
  destruct (encrypted_stream e ks k kb hb p raw ks' n' HA HV ER) as (hdr & X & -> & HAd & HAu & HCa).
  set (raw := hdr ++ RandBytes (e_tape e) 16 ++ X) in *.
  destruct (decoded_encode raw) as [E1 E2].
  apply (ready_faithful (b64_source chan_read fuel') (b64_at chan_at fuel') 3 fuel ks' k kb hb hdr _ X p _ 0%nat cs (b64_feeds chan_read chan_at fuel' chan_feeds) ltac:(lia) HAd HAu HCa).
  - split; [reflexivity|]. split; [reflexivity|].
    pose proof (br_new_at chan_at fuel' (MkChan plan (Base64WSEncode raw)) (Base64WSEncode raw) (length plan)) as H. rewrite E1, E2 in H.
    apply H; [split; reflexivity | apply encode_good | exact HFu1].
  - fold raw. pose proof (len_encode raw) as L. pose proof (len_nonneg raw) as L0.
    assert (len raw <= len (Base64WSEncode raw)) by (rewrite L; apply Z.div_le_lower_bound; lia).
    unfold len in *. lia.
Qed.
Print Assumptions C52_any_schedule_base64.

(** ** C53: what a clean end means *)

(** A first read that does not fail found a header of a usable AES key of the set. *)
Lemma first_read_addressed {St} (rd : source St) P ks fuel raw s m c x ds : feeds rd P 1 -> P s raw m -> (m + length raw < fuel)%nat -> 41 < len raw ->
  dr_read rd fuel (CreateDecryptingStreamReader ks) s c = (Ok x, ds) ->
  exists hdr iv X a kb hb, raw = hdr ++ iv ++ X /\ addressed ks a kb hb hdr iv X.
Proof.
  intros HF HP HFu HL. destruct (split_at raw 5) as (hdr & raw1 & -> & LH); [lia|]. rewrite len_app in HL.
  destruct (split_at raw1 16) as (iv & X & -> & LI); [lia|]. rewrite len_app in HL.
  destruct (ReadBytes_feeds rd P 1 HF ltac:(lia) fuel s _ m 5 true [] HP) as (y & av & s1 & t1 & m1 & E & ET & HP1 & HM & R1 & R2 & R3);
    [reflexivity | exact HFu|]. cbn [app] in *. pose proof (f_equal len ET) as LT. rewrite !len_app in LT. pose proof (len_nonneg t1).
  assert (av = true) as -> by (destruct av; [reflexivity|]; destruct (R1 eq_refl) as [-> L]; rewrite len_nil in LT; lia).
  destruct (R2 eq_refl) as [LY|[C _]]; [|discriminate].
  destruct (split_at y 5) as (y1 & y2 & -> & L1); [lia|]. rewrite <- (app_assoc y1) in ET. destruct (app_inv_len _ _ _ _ ET) as [<- ET2]; [lia|].
  rewrite len_app in *. unfold dr_read, dr_CreateKey, CreateDecryptingStreamReader, set_enc, set_key, set_hmac. cbn [dr_key dr_cipher dr_ks dr_hmac dr_enc dr_dec dr_closed].
  change (HEADER_SIZE - len (@nil byte)) with 5. rewrite E. cbn [dr_key dr_cipher dr_ks dr_hmac dr_enc dr_dec dr_closed app]. change HEADER_SIZE with 5. rewrite len_app. replace (5 <=? len hdr + len y2) with true by lia.
  rewrite slice_to_app, slice_from_app by lia.
  destruct (ParseHeader ks hdr) as [k|] eqn:EP; [|intros HR; cbv beta iota zeta in HR; discriminate HR].
  destruct k; cbn [key_hmac_key bind]; try (intros HR; cbv beta iota zeta in HR; discriminate HR). unfold CreateStreamable.
  destruct (hmac_bytes (ak_hmac _)) as [hb|] eqn:EH; cbn [bind]; [|intros HR; cbv beta iota zeta in HR; discriminate HR].
  unfold set_enc, set_key, set_hmac. cbn [dr_key dr_cipher dr_ks dr_hmac dr_enc dr_dec dr_closed]. unfold dr_CreateCipher. cbn [dr_key dr_cipher dr_ks dr_hmac dr_enc dr_dec dr_closed].
  change block_size with 16.
  destruct (ReadBytes_feeds rd P 1 HF ltac:(lia) fuel s1 t1 m1 (16 - len y2) true [] HP1) as (z & av & s2 & t2 & m2 & E2 & -> & HP2 & HM2 & Q1 & Q2 & _);
    [rewrite len_nil; lia | apply (f_equal (@length byte)) in ET; rewrite !app_length in *; lia|]. cbn [app] in *. rewrite E2.
  rewrite len_app in LT. assert (av = true) as -> by (destruct av; [reflexivity|]; destruct (Q1 eq_refl) as [-> L]; rewrite len_nil in LT; lia).
  destruct (Q2 eq_refl) as [LZ|[C _]]; [|discriminate].
  unfold set_enc, set_key, set_hmac. cbn [dr_key dr_cipher dr_ks dr_hmac dr_enc dr_dec dr_closed]. replace (16 <=? len (y2 ++ z)) with true by (rewrite len_app; lia).
  destruct (split_at (y2 ++ z) 16) as (z1 & z2 & EZ & L2); [rewrite len_app; lia|]. rewrite EZ, slice_to_app by lia.
  destruct (aes_bytes _) as [kb|] eqn:EK; cbn [bind]; [|intros HR; cbv beta iota zeta in HR; discriminate HR].
  destruct (AES_new kb z1) as [ci|] eqn:EA; [|intros HR; cbv beta iota zeta in HR; discriminate HR]. intros _.
  eexists hdr, iv, X, _, kb, hb. split; [reflexivity|]. split; [lia|]. split; [lia|]. split; [lia|]. split; [exact EP|]. split; [split; eassumption|].
  unfold AES_new in EA. destruct (((len kb =? 16) || (len kb =? 24) || (len kb =? 32)) && (len z1 =? block_size)) eqn:E16; [|discriminate].
  apply andb_true_iff in E16 as [E16 _]. unfold aes_size_ok. lia.
Qed.

(** Whatever the stream holds (more than 41 bytes), if the calls of [read] up to a clean end raised nothing, then
    the stream is header, IV, body and tag, the header names an AES key of the set, the tag is the HMAC of
    everything before it, and what was delivered is the decrypted body without its padding. *)
Theorem C53_clean_end_is_authentic_partial : forall ks raw plan fuel cs c ys, 41 < len raw -> (length plan + length raw < fuel)%nat -> c <> 0 ->
  dr_reads chan_read fuel (CreateDecryptingStreamReader ks) (MkChan plan raw) (cs ++ [c]) = ys ++ [Ok (Some [])] ->
  Forall (fun x => is_ok x = true) ys ->
  exists hdr iv body tag a kb hb, raw = hdr ++ iv ++ body ++ tag /\ len hdr = 5 /\ len iv = 16 /\ len tag = 20 /\
    ParseHeader ks hdr = Ok (KAes a) /\ aes_material a kb hb /\ tag = hmac_sha1 hb (hdr ++ iv ++ body) /\
    (exists pad c', cipher_decrypt (MkCipher (key_schedule kb) iv) body = Ok (delivered ys ++ pad, c')) /\
    (forall p c', cipher_decrypt (MkCipher (key_schedule kb) iv) body = Ok (Pad p, c') -> delivered ys = p).
Proof.
  intros ks raw plan fuel cs c ys HL HFu HC E HY.
  assert (HP : chan_at (MkChan plan raw) raw (length plan)) by (split; reflexivity).
  assert (exists c0 cs0 x, cs ++ [c] = c0 :: cs0 /\ fst (dr_read chan_read fuel (CreateDecryptingStreamReader ks) (MkChan plan raw) c0) = Ok x) as (c0 & cs0 & x & EC & EX).
  { destruct cs as [|c0 cs]; cbn [app dr_reads] in E; destruct (dr_read _ _ _ _ _) as [x0 ds] eqn:ER; cbn [fst].
    - exists c, []. rewrite ER. cbn [fst dr_reads] in *. destruct ys as [|y ys]; [|destruct ys; discriminate]. cbn [app] in E. injection E as ->. eexists. split; reflexivity.
    - exists c0, (cs ++ [c]). rewrite ER. cbn [fst]. destruct ys as [|y ys]; cbn [app] in E.
      + injection E as -> _. eexists. split; reflexivity.
      + injection E as <- _. inversion HY as [|? ? H _]. subst. destruct x0; [|discriminate]. eexists. split; reflexivity. }
  destruct (dr_read chan_read fuel (CreateDecryptingStreamReader ks) (MkChan plan raw) c0) as [x0 ds] eqn:ER. cbn [fst] in EX. subst x0.
  destruct (first_read_addressed chan_read chan_at ks fuel raw _ (length plan) c0 x ds chan_feeds HP HFu HL ER) as (hdr & iv & X & a & kb & hb & -> & HA).
  assert (HRd : ready chan_at fuel ks kb hb hdr iv X (CreateDecryptingStreamReader ks) (MkChan plan (hdr ++ iv ++ X)) []).
  { left. repeat split. exists (length plan). split; [split; reflexivity | exact HFu]. }
  destruct (clean_end chan_read chan_at 1 fuel ks a kb hb hdr iv X cs c _ _ [] ys chan_feeds ltac:(lia) HA HRd HC E HY) as (d' & s' & HE & HD).
  cbn [app] in HE. pose proof HE as [_ _ _ _ _ _ (body & tag & EB & LT & MB & ET) (b1 & last & tag' & p1 & p2 & u & c1 & c2 & EX & LT' & M1 & M2 & HNE & D1 & D2 & EU & EO)].
  destruct HA as (LH & LI & LX & EP & HM & HS).
  exists hdr, iv, body, tag, a, kb, hb. rewrite EB. split; [reflexivity|]. split; [exact LH|]. split; [exact LI|]. split; [exact LT|]. split; [exact EP|]. split; [exact HM|]. split; [exact ET|].
  rewrite EB, app_assoc in EX. destruct (app_inv_len_r _ _ _ _ EX) as [EBody _]; [lia|]. split.
  - rewrite HD, app_nil_r in EO. rewrite EBody, cipher_decrypt_app, D1 by assumption. cbn [bind]. rewrite D2. cbn [bind]. rewrite EO.
    destruct (UnPad_ok p2) as (u' & pad & EU' & EP2).
    { intros ->. cbn in EU. discriminate. }
    rewrite EU in EU'. apply Ok_inj in EU' as <-. exists pad, c2. rewrite EP2 at 1. rewrite <- app_assoc. reflexivity.
  - intros p c' EPd. pose proof (ended_plain _ _ _ _ _ _ _ _ _ _ p HS LI HE) as EPl. rewrite HD, app_nil_r in EPl. symmetry. apply EPl.
    exists body, tag, c'. repeat split; assumption.
Qed.
Print Assumptions C53_clean_end_is_authentic_partial.

(** The full statement fails in two ways.  First, a stream of at most 41 bytes (one that ends inside the header,
    or starts with a header of the set) ends cleanly at once, without any exception. *)
Theorem C53_short_streams_refuted : forall ks raw plan fuel c, len raw <= 41 -> (length plan + length raw < fuel)%nat ->
  len raw < 5 \/ (exists a kb hb, ParseHeader ks (slice_to raw 5) = Ok (KAes a) /\ aes_material a kb hb /\ aes_size_ok kb) ->
  dr_reads chan_read fuel (CreateDecryptingStreamReader ks) (MkChan plan raw) [c] = [Ok (Some [])].
Proof.
  intros ks raw plan fuel c HL HFu HH. cbn [dr_reads].
  pose proof (short_stream chan_read chan_at 1 fuel ks raw (MkChan plan raw) (length plan) c chan_feeds ltac:(lia) (conj eq_refl eq_refl) HFu HL HH) as E.
  destruct (dr_read _ _ _ _ _) as [x ds]. cbn [fst] in E. rewrite E. reflexivity.
Qed.
Print Assumptions C53_short_streams_refuted.

(** So every ciphertext cut down to at most 41 bytes reads as an empty plaintext. *)
Theorem C53_truncation_to_41_bytes_refuted : forall e ks k kb hb p raw ks' n' m plan fuel c,
  aes_primary ks k kb hb -> holds ks' n' (KAes k) -> Encrypt e ks p None = Ok raw -> 0 <= m <= 41 -> (length plan + Z.to_nat m < fuel)%nat ->
  dr_reads chan_read fuel (CreateDecryptingStreamReader ks') (MkChan plan (slice_to raw m)) [c] = [Ok (Some [])].
Proof.
  intros e ks k kb hb p raw ks' n' m plan fuel c HA HV EE HM HFu.
  destruct (encrypted_stream e ks k kb hb p raw ks' n' HA HV EE) as (hdr & X & -> & (LH & LI & LX & EP & HMat & HS) & _).
  set (raw := hdr ++ RandBytes (e_tape e) 16 ++ X). assert (LR : 41 < len raw) by (unfold raw; rewrite !len_app; lia).
  assert (LS : len (slice_to raw m) = m) by (apply len_slice_to; lia).
  apply C53_short_streams_refuted; [lia | unfold len in LS; lia|].
  destruct (Z.lt_ge_cases m 5) as [L|L]; [left; lia|]. right. exists k, kb, hb. split; [|split; assumption].
  rewrite <- EP. f_equal. rewrite !slice_to_firstn by lia. rewrite firstn_firstn. unfold raw.
  rewrite firstn_app. replace (Nat.min (Z.to_nat 5) (Z.to_nat m)) with (length hdr) by (unfold len in LH; lia).
  rewrite Nat.sub_diag, firstn_all. cbn [firstn]. apply app_nil_r.
Qed.
Print Assumptions C53_truncation_to_41_bytes_refuted.

(** Second, the exception is raised once: reading on after it reports a clean end, so a caller that
    retries takes a forged stream for a complete one.  For every stream addressed to an AES key whose tag is
    wrong, [read()] raises once and then returns the empty string. *)
Theorem C53_error_then_clean_end_refuted : forall ks a kb hb hdr iv X plan fuel,
  addressed ks a kb hb hdr iv X -> ~ authentic hb hdr iv X -> (length plan + length (hdr ++ iv ++ X) < fuel)%nat ->
  exists j ys, dr_reads chan_read fuel (CreateDecryptingStreamReader ks) (MkChan plan (hdr ++ iv ++ X)) (repeat (-1) j) =
      ys ++ [Raise (bad_exn X); Ok (Some [])] /\ Forall (fun x => is_ok x = true) ys.
Proof.
  intros ks a kb hb hdr iv X plan fuel HA HN HFu.
  apply (forged_then_clean chan_read chan_at 1 fuel ks a kb hb hdr iv X chan_feeds ltac:(lia) HA HN (S (length X)) _ _ []); [cbn [length]; lia | reflexivity|].
  left. repeat split. exists (length plan). split; [split; reflexivity | exact HFu].
Qed.
Print Assumptions C53_error_then_clean_end_refuted.

(** ** C55: the Base64 reader *)

(** What calls of [read(size, chars)] should return for the decoded text [w]. *)
Definition faithful_text (w : str) (cs : list (Z * Z)) (xs : list (res (option str))) : Prop :=
  Forall (fun x => exists d, x = Ok (Some d)) xs /\
  (exists rest, w = delivered xs ++ rest) /\
  (forall cs1 c cs2 ys zs, cs = cs1 ++ c :: cs2 -> length ys = length cs1 -> snd c <> 0 -> xs = ys ++ Ok (Some []) :: zs -> delivered ys = w) /\
  ((length w < asking2 cs)%nat -> delivered xs = w).

(** For texts over the Base64 alphabet, any channel and any reads ([size] not 0, unless [chars] is 0), the reader
    delivers what [Base64WSDecode] makes of the whole text... *)
Theorem C55_reader_decodes_partial : forall u w plan fuel cs, Forall (fun c => In c url_alphabet) u -> Base64WSDecode u = Ok w ->
  Forall (fun c => fst c <> 0 \/ snd c = 0) cs -> (length plan + length u < fuel)%nat ->
  faithful_text w cs (br_reads chan_read fuel (br_new (MkChan plan u)) cs).
Proof.
  intros u w plan fuel cs HU ED HC HFu. assert (HG : Forall good_char u) by (eapply Forall_impl; [apply alphabet_good | exact HU]).
  rewrite (decode_good u HG) in ED. destruct (len u mod 4 =? 1) eqn:EB; [discriminate|]. apply Ok_inj in ED as <-.
  pose proof (br_new_at chan_at fuel (MkChan plan u) u (length plan) (conj eq_refl eq_refl) HG HFu) as HA. rewrite EB in HA.
  destruct (br_reads_at chan_read chan_at 1 fuel false chan_feeds ltac:(lia) cs _ _ HC HA) as (I1 & _ & (t' & I3) & I4 & I5 & _).
  split; [apply I1; reflexivity|]. split; [exists t'; exact I3|]. split; [intros cs1 c cs2 ys zs E1 E2 E3 E4; apply (I5 cs1 c cs2 ys zs E1 E2 E3 E4)|].
  intros HL. destruct I4 as [I4|I4]; [exact I4|]. exfalso. rewrite I3, app_length in HL. lia.
Qed.
Print Assumptions C55_reader_decodes_partial.

(** ... and a text [Base64WSDecode] rejects is never reported as complete, and is reported after enough reads. *)
Theorem C55_reader_rejects_partial : forall u e plan fuel cs, Forall (fun c => In c url_alphabet) u -> Base64WSDecode u = Raise e ->
  Forall (fun c => fst c <> 0 \/ snd c = 0) cs -> (length plan + length u < fuel)%nat ->
  let xs := br_reads chan_read fuel (br_new (MkChan plan u)) cs in
  Forall (fun x => (exists d, x = Ok (Some d)) \/ x = Raise e) xs /\
  (forall cs1 c cs2 ys zs, cs = cs1 ++ c :: cs2 -> length ys = length cs1 -> snd c <> 0 -> xs <> ys ++ Ok (Some []) :: zs) /\
  ((length u < asking2 cs)%nat -> In (Raise e) xs).
Proof.
  intros u e plan fuel cs HU ED HC HFu xs. assert (HG : Forall good_char u) by (eapply Forall_impl; [apply alphabet_good | exact HU]).
  rewrite (decode_good u HG) in ED. destruct (len u mod 4 =? 1) eqn:EB; [|discriminate]. apply Raise_inj in ED as <-.
  pose proof (br_new_at chan_at fuel (MkChan plan u) u (length plan) (conj eq_refl eq_refl) HG HFu) as HA. rewrite EB in HA.
  destruct (br_reads_at chan_read chan_at 1 fuel true chan_feeds ltac:(lia) cs _ _ HC HA) as (_ & I2 & _ & _ & I5 & _ & I7).
  split; [apply I2; reflexivity|]. split; [intros cs1 c cs2 ys zs E1 E2 E3 E4; destruct (I5 cs1 c cs2 ys zs E1 E2 E3 E4); discriminate|].
  intros HL. apply I7; [reflexivity|]. pose proof (len_decoded u HG) as L. pose proof (len_nonneg u).
  assert (len (decoded u) <= len u) by (rewrite L; apply Z.div_le_upper_bound; lia). unfold len in *. lia.
Qed.
Print Assumptions C55_reader_rejects_partial.

(** Line breaks, which [Base64WSDecode] ignores, are counted by the reader: a text of two lines loses its last byte
    and then raises. *)
Definition two_lines : str := bs "QUJD" ++ [x0a] ++ bs "REVG".
Theorem C55_line_breaks_refuted :
  Base64WSDecode two_lines = Ok (bs "ABCDEF") /\
  br_reads chan_read 20 (br_new (MkChan [] two_lines)) [(-1, -1); (-1, -1)] = [Ok (Some (bs "ABCDE")); Raise Base64DecodingError].
Proof. split; vm_compute; reflexivity. Qed.
Print Assumptions C55_line_breaks_refuted.

(** [read(0)] hands out the decoder's partial group, and what follows is decoded out of step: the text of
    "ABCDEF" then reads as "ABC", "D", "T". *)
Theorem C55_read_of_size_0_refuted :
  Base64WSDecode (bs "QUJDREVG") = Ok (bs "ABCDEF") /\
  br_reads chan_read 20 (br_new (MkChan [] (bs "QUJDREVG"))) [(3, -1); (0, -1); (-1, -1); (-1, -1)] =
    [Ok (Some (bs "ABC")); Ok (Some (bs "D")); Ok (Some (bs "T")); Ok (Some [])].
Proof. split; vm_compute; reflexivity. Qed.
Print Assumptions C55_read_of_size_0_refuted.

(** [read(chars=1)] can return two bytes, although its documentation rules that out. *)
Theorem C55_chars_is_no_bound_refuted :
  br_reads chan_read 20 (br_new (MkChan [] (bs "QUI"))) [(-1, 1)] = [Ok (Some (bs "AB"))].
Proof. vm_compute. reflexivity. Qed.
Print Assumptions C55_chars_is_no_bound_refuted.

(** ** C56: input that has no data yet *)

(** A stream that never has data. *)
Definition silent : source unit := fun s _ => (Ok None, s).

Lemma silent_loop fuel r size chars nd : br_satisfied chars size (br_chars r) = false ->
  snd (br_loop silent fuel r size chars nd) = Raise Diverge.
Proof.
  intros H. revert r nd H. induction fuel as [|fuel IH]; intros r nd H; cbn [br_loop]; rewrite H; [reflexivity|].
  cbn [silent]. apply IH. exact H.
Qed.

(** The Base64 reader does not return when its stream has no data: the loop goes on for any number of iterations... *)
Theorem C56_reader_spins_refuted : forall fuel size chars, size <> 0 \/ 0 < chars -> chars <> 0 ->
  snd (br_read silent fuel (br_new tt) size chars) = Raise Diverge.
Proof.
  intros fuel size chars H HC. unfold br_read.
  assert (S : br_satisfied chars size (br_chars (br_new tt)) = false).
  { unfold br_satisfied. cbn [br_new br_chars]. change (len (@nil byte)) with 0. destruct (chars <? 0) eqn:E1; [destruct (size <? 0) eqn:E2; [reflexivity|]|]; lia. }
  pose proof (silent_loop fuel (br_new tt) size chars (Some []) S) as E. destruct (br_loop _ _ _ _ _ _) as [r x]. cbn [snd] in E. rewrite E. reflexivity.
Qed.
Print Assumptions C56_reader_spins_refuted.

(** ... and None, the documented answer, is never returned, whatever the stream does. *)
Lemma br_loop_None {St} (rd : source St) fuel size chars : forall r nd r', br_loop rd fuel r size chars nd = (r', Ok None) ->
  nd = None /\ r' = r /\ br_satisfied chars size (br_chars r) = true.
Proof.
  induction fuel as [|fuel IH]; intros r nd r'; cbn [br_loop].
  - destruct (br_satisfied _ _ _) eqn:E; [|discriminate]. intros H. apply pair_inj in H as [-> H]. apply Ok_inj in H as ->. auto.
  - destruct (br_satisfied _ _ _) eqn:E; [intros H; apply pair_inj in H as [-> H]; apply Ok_inj in H as ->; auto|].
    destruct (rd _ _) as [[[data|]|e] s]; [| |discriminate].
    + destruct (decoder_decode _ _) as [[nc b]|]; [|discriminate]. destruct data as [|y data]; [discriminate|].
      intros H. destruct (IH _ _ _ H) as (C & _). discriminate.
    + intros H. destruct (IH _ _ _ H) as (_ & _ & C). cbn [br_chars] in C. congruence.
Qed.

Theorem C56_None_is_never_returned_refuted : forall St (rd : source St) fuel r size chars,
  snd (br_read rd fuel r size chars) <> Ok None.
Proof.
  intros St rd fuel r size chars. unfold br_read. destruct (br_loop rd fuel r size chars (Some [])) as [r' [nd|e]] eqn:E; [|discriminate].
  destruct nd as [nd|].
  - destruct (if chars <? 0 then br_chars r' else slice_to (br_chars r') chars) as [|y l]; [|discriminate].
    destruct nd; [|discriminate]. destruct (chars =? 0); [discriminate|]. destruct (decoder_flush _) as [[d b]|]; discriminate.
  - destruct (br_loop_None rd fuel size chars r (Some []) r' E) as (C & _). discriminate.
Qed.
Print Assumptions C56_None_is_never_returned_refuted.

(** The decrypting reader spins on such a stream as well. *)
Theorem C56_decrypting_reader_spins_refuted : forall ks fuel chars,
  fst (dr_read silent fuel (CreateDecryptingStreamReader ks) tt chars) = Raise Diverge.
Proof.
  intros ks fuel chars. unfold dr_read. cbn [CreateDecryptingStreamReader dr_closed dr_key]. unfold dr_CreateKey. cbn [dr_enc].
  assert (S : forall acc, len acc < 5 -> ReadBytes silent fuel tt 5 true acc = (Raise Diverge, tt)).
  { induction fuel as [|f IH]; intros acc HA; [reflexivity|]. cbn [ReadBytes silent negb]. replace (len acc <? 5) with true by lia. apply IH, HA. }
  change (HEADER_SIZE - len (dr_enc (MkDsr ks None None None [] [] false))) with 5. unfold CreateDecryptingStreamReader. cbn [dr_enc].
  change (HEADER_SIZE - len (@nil byte)) with 5. rewrite S by reflexivity. reflexivity.
Qed.
Print Assumptions C56_decrypting_reader_spins_refuted.

(** ** C57: life cycle *)

(** After [close], every operation of the writer raises ValueError and writes nothing, for good. *)
Theorem C57_closed_writer : forall w cs w1, ew_close w = (w1, Ok tt) ->
  wrun w1 cs = (w1, map (fun _ => Raise ValueError) cs) /\ ew_out w1 = ew_out w.
Proof.
  intros w cs w1 E. unfold ew_close in E. destruct (ew_closed w) eqn:EC; [discriminate|]. apply pair_inj in E as [<- _]. split; [|reflexivity].
  set (w1 := MkEsw _ _ _ _ _). assert (HC : ew_closed w1 = true) by reflexivity. clearbody w1. induction cs as [|c cs IH]; [reflexivity|]. cbn [wrun map].
  assert (E : wstep w1 c = (w1, Raise ValueError)) by (destruct c; cbn [wstep]; unfold ew_write, ew_flush, ew_close; rewrite HC; reflexivity).
  rewrite E, IH. reflexivity.
Qed.
Print Assumptions C57_closed_writer.

(** An open writer can always be closed. *)
Theorem C57_close_succeeds : forall w, ew_closed w = false -> exists w1, ew_close w = (w1, Ok tt).
Proof. intros w H. unfold ew_close. rewrite H. eexists. reflexivity. Qed.
Print Assumptions C57_close_succeeds.

(** After [close], every read raises ValueError and takes nothing from the stream. *)
Theorem C57_closed_reader : forall St (rd : source St) fuel d s cs,
  dr_reads rd fuel (dr_close d) s cs = map (fun _ => Raise ValueError) cs /\ snd (dr_after rd fuel (dr_close d) s cs) = s.
Proof.
  intros St rd fuel d s cs.
  assert (E : forall c, dr_read rd fuel (dr_close d) s c = (Raise ValueError, (dr_close d, s))) by reflexivity.
  induction cs as [|c cs [I1 I2]]; [split; reflexivity|]. cbn [dr_reads dr_after map]. rewrite E. cbn [fst snd]. rewrite I1. split; [reflexivity | exact I2].
Qed.
Print Assumptions C57_closed_reader.

(** Flushing an open writer, in full. *)
Lemma flush_raw c hb md data o : cipher_ok c ->
  exists body c', ew_flush (MkEsw c (MkHs hb md) data false (RawSink o)) =
      (MkEsw c' (MkHs hb (md ++ body)) data false (RawSink ((o ++ body) ++ hmac_sha1 hb (md ++ body))), Ok tt) /\
    cipher_ok c' /\ 16 <= len body.
Proof.
  intros HC. assert (M : len (Pad data) mod 16 = 0) by (rewrite len_Pad; pose proof (len_nonneg data); rewrite Z.mul_comm; apply Z.mod_mul; lia).
  destruct (cipher_encrypt_ok c (Pad data) HC M) as (body & c' & E & HC' & L & _). exists body, c'.
  unfold ew_flush, WriteEncrypted. cbn [ew_closed ew_cipher ew_data ew_hmac ew_sink]. rewrite E.
  split; [reflexivity|]. split; [exact HC'|]. rewrite L, len_Pad. pose proof (Z.div_pos (len data) 16 (len_nonneg data) ltac:(lia)). lia.
Qed.

(** Flushing again appends to the output, at least a block and another tag.  That tag is for the header and
    the blocks without the first tag, so the result no longer decrypts, unless the HMAC with the first tag
    happens to be the same. *)
Theorem C57_second_flush_refuted : forall e ks k kb hb ds ks' n', aes_primary ks k kb hb -> holds ks' n' (KAes k) ->
  exists w w1 w2, CreateEncryptingStreamWriter ks (e_tape e) false = Ok w /\
    wrun w (map CWrite ds ++ [CFlush]) = (w1, map (fun _ => Ok tt) ds ++ [Ok tt]) /\ ew_flush w1 = (w2, Ok tt) /\
    Decrypt ks' (ew_out w1) None = Ok (concat ds) /\
    exists m body, ew_out w1 = m ++ hmac_sha1 hb m /\ 16 <= len body /\
      ew_out w2 = ew_out w1 ++ body ++ hmac_sha1 hb (m ++ body) /\
      (Decrypt ks' (ew_out w2) None = Raise InvalidSignatureError \/
       hmac_sha1 hb (m ++ body) = hmac_sha1 hb (ew_out w1 ++ body)).
Proof.
  intros e ks k kb hb ds ks' n' HA HV.
  destruct (C51_output_decrypts e ks k kb hb false ds ks' n' HA HV) as (w0 & w0' & EW0 & ER0 & ED0).
  destruct (stream_writer e ks k kb hb false HA) as (hdr & w & EH & EW & AT). rewrite EW in EW0. apply Ok_inj in EW0 as <-.
  assert (HI : len (RandBytes (e_tape e) 16) = 16) by (apply len_RandBytes; lia). destruct HA as (_ & HM & HS).
  set (iv := RandBytes (e_tape e) 16) in *.
  destruct (wrun_writes kb hb hdr _ false ds HS HI w [] AT) as (w1 & E1 & AT1). cbn [app] in AT1.
  destruct AT1 as [HO HB (q & body & _ & HQ & _ & HC & HH & HK)].
  assert (HOK : cipher_ok (ew_cipher w1)).
  { destruct (cipher_encrypt_ok _ q (AES_new_ok kb iv _ (AES_new_iff kb iv HS HI)) HQ) as (b0 & c0 & EE & HOK & _). rewrite HC in EE. apply Ok_inj, pair_inj in EE as [_ <-]. exact HOK. }
  destruct w1 as [c1 h1 d1 cl1 s1]. cbn [ew_closed ew_cipher ew_data ew_hmac ew_sink] in *. subst cl1 h1.
  destruct s1 as [o1|]; [|discriminate HB]. cbn [sink_holds] in HK. subst o1.
  destruct (flush_raw c1 hb (hdr ++ iv ++ body) d1 (hdr ++ iv ++ body) HOK) as (b1 & c2 & F1 & HOK2 & L1).
  set (m := (hdr ++ iv ++ body) ++ b1) in *.
  destruct (flush_raw c2 hb m d1 (m ++ hmac_sha1 hb m) HOK2) as (b2 & c3 & F2 & _ & L2).
  rewrite wrun_app, E1 in ER0. cbn [fst snd wrun wstep] in ER0. rewrite F1 in ER0. cbn [fst snd] in ER0. apply pair_inj in ER0 as [<- _].
  eexists w, _, _. split; [exact EW|]. split; [rewrite wrun_app, E1; cbn [fst snd wrun wstep]; rewrite F1; reflexivity|].
  split; [exact F2|]. split; [exact ED0|]. unfold ew_out. cbn [fst ew_sink sink_out].
  exists m, b2. split; [reflexivity|]. split; [exact L2|]. split; [rewrite <- !app_assoc; reflexivity|].
  set (m2 := (m ++ hmac_sha1 hb m) ++ b2).
  destruct (list_eq_dec Byte.byte_eq_dec (hmac_sha1 hb (m ++ b2)) (hmac_sha1 hb m2)) as [E|NE].
  - right. exact E.
  - left. destruct (aes_header_ok k kb hb HM) as (id & EH2 & L4 & HHash & _). rewrite EH in EH2. apply Ok_inj in EH2 as ->.
    assert (EQ : m2 ++ hmac_sha1 hb (m ++ b2) = x00 :: id ++ (iv ++ body ++ b1 ++ hmac_sha1 hb m ++ b2 ++ hmac_sha1 hb (m ++ b2))).
    { unfold m2. replace m with ((x00 :: id) ++ iv ++ body ++ b1) at 1 by (unfold m; rewrite <- !app_assoc; reflexivity). rewrite <- !app_assoc. reflexivity. }
    rewrite EQ, (Decrypt_made ks' n' (KAes k) id _ HV HHash L4). cbn [key_Decrypt]. rewrite <- EQ.
    apply (AesKey_Decrypt_tag k hb); [apply HM | apply len_hmac | | exact NE].
    unfold m2, m. rewrite !len_app. rewrite len_cons, L4. pose proof (len_nonneg body). pose proof (len_nonneg b1). rewrite len_hmac. lia.
Qed.
Print Assumptions C57_second_flush_refuted.

(** ** Concrete cases *)

Lemma aes_case : exists k kb hb, aes_primary aes_set k kb hb /\ holds aes_set 2 (KAes k).
Proof.
  destruct C40_case as ((n & k & kb & hb & A & B & C & D) & _). exists k, kb, hb.
  assert (n = 2) as ->.
  { destruct (Z.eq_dec n 2) as [|N]; [assumption|]. exfalso. destruct D as (R & _ & _). pose proof (reached_inv _ R) as I.
    pose proof (proj2 (primary_key_spec aes_set (KAes k) I) (ex_intro _ n A)) as E1.
    unfold ring_of in A. revert A. vm_compute. destruct n as [|[[?|?|]|[?|?|]|]|?]; try discriminate; try contradiction. }
  split; [|exact D]. split; [|split; assumption]. split; [apply D | exists 2; exact A].
Qed.

(** The hypotheses of C51-C53 and C57 are met by testdata/aes, its own reader, data in three pieces and a channel
    that stalls and splits. *)
Example C51_case : exists k kb hb, aes_primary aes_set k kb hb /\ holds aes_set 2 (KAes k) /\
  concat [bs "This is "; []; bs "some test data"] = bs "This is some test data".
Proof. destruct aes_case as (k & kb & hb & A & B). exists k, kb, hb. split; [exact A|]. split; [exact B | reflexivity]. Qed.

Example C52_case : exists k kb hb raw e, aes_primary aes_set k kb hb /\ holds aes_set 2 (KAes k) /\ Encrypt e aes_set (bs "This is some test data") None = Ok raw /\
  exists fuel, (length [None; Some 2%nat; None; Some 0%nat] + length raw < fuel)%nat /\ asking [5; 0; -1; 100] = 3%nat.
Proof.
  destruct aes_case as (k & kb & hb & A & B). exists k, kb, hb.
  set (e := MkEnv PyCrypto (fun _ => x00) 0). destruct (aes_primary_Encrypt e aes_set k kb hb (bs "This is some test data") A) as (hdr & _ & _ & _ & _ & EE).
  eexists _, e. split; [exact A|]. split; [exact B|]. split; [exact EE|]. eexists (S _). split; [apply Nat.lt_succ_diag_r | reflexivity].
Qed.

Example C53_case : exists ks a kb hb hdr iv X, addressed ks a kb hb hdr iv X /\ ~ authentic hb hdr iv X /\ len (hdr ++ iv ++ X) = 58.
Proof.
  destruct aes_case as (k & kb & hb & (HG & HM & HS) & B). destruct (aes_header_ok k kb hb HM) as (id & _ & L4 & HH & _).
  exists aes_set, k, kb, hb, (x00 :: id), (rep 16 x00), (rep 37 x00). split; [|split].
  - split; [rewrite len_cons, L4; reflexivity|]. split; [reflexivity|]. split; [reflexivity|]. split; [apply (header_find aes_set 2 (KAes k) id B HH L4)|]. split; assumption.
  - intros (body & tag & E & LT & M & _). apply (f_equal len) in E. rewrite len_app, LT in E. change (len (rep 37 x00)) with 37 in E.
    assert (len body = 17) as L by lia. rewrite L in M. discriminate.
  - rewrite !len_app, len_cons, L4. reflexivity.
Qed.

Example C54_case : bw_out (bw_flush (bw_writes [bs "A"; []; bs "BCDE"; bs "F"] bw_new)) = bs "QUJDREVG".
Proof. vm_compute. reflexivity. Qed.

Example C55_case : Forall (fun c => In c url_alphabet) (bs "QUJDREU") /\ Base64WSDecode (bs "QUJDREU") = Ok (bs "ABCDE") /\
  Forall (fun c : Z * Z => fst c <> 0 \/ snd c = 0) [(3, -1); (-1, 2); (0, 0); (-1, -1)] /\ asking2 [(3, -1); (-1, 2); (0, 0); (-1, -1)] = 3%nat /\
  Base64WSDecode (bs "QUJDR") = Raise Base64DecodingError.
Proof.
  split; [|split; [vm_compute; reflexivity|split; [|split; vm_compute; reflexivity]]].
  - repeat (constructor; [vm_compute; tauto|]). constructor.
  - repeat (constructor; [cbn; lia|]). constructor.
Qed.

Example C57_case : exists e w, CreateEncryptingStreamWriter aes_set (e_tape e) true = Ok w /\ ew_closed w = false.
Proof.
  destruct aes_case as (k & kb & hb & A & B). set (e := MkEnv PyCrypto (fun _ => x00) 0).
  destruct (stream_writer e aes_set k kb hb true A) as (hdr & w & _ & EW & AT). exists e, w. split; [exact EW | apply AT].
Qed.
