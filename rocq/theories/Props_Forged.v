(** * Props_Forged: streams that are not authentic, read in any way (C53). *)
From Coq Require Import Strings.String.
From Coq Require Import List ZArith NArith Bool Lia ZifyBool ZifyNat ZifyN.
From Coq.Init Require Import Byte.
From Verif Require Import PyBase PyFacts Base64 Aes AesFacts Base64Facts Sha1 Util UtilFacts KeyInfo SymKeys SymFacts Keys KeyData Keyczar Streams StreamFacts.
From Verif Require Import Props_Util Props_Disk Props_Sign Props_Stream.
Import ListNotations.
Local Open Scope Z_scope.

(** What the calls of [read] return for a stream that continues, after header and IV, with [X], which is not what the key would
    have written: pieces of the decrypted blocks and no report of the end; then, at the latest with the call after as many as there are
    bytes, not counting those that ask for nothing, the exception.  A caller who goes on gets no other exception.  All that is ever
    delivered are the decrypted blocks in order, without the last one. *)
Definition exposed (kb iv X : str) (cs : list Z) (xs : list (res (option str))) : Prop :=
  (exists blocks rest plain c' tail, X = blocks ++ rest /\ 20 < len rest /\
    cipher_decrypt (MkCipher (key_schedule kb) iv) blocks = Ok (plain, c') /\ plain = delivered xs ++ tail) /\
  exists ys, Forall (fun x => exists o, x = Ok o /\ o <> Some []) ys /\
    let raised := exists zs, xs = ys ++ Raise (bad_exn X) :: zs /\ Forall (fun x => exists o, x = Ok (Some o)) zs in
    (xs = ys \/ raised) /\ ((length X < asking cs)%nat -> raised).

(** After the exception: what was decrypted before and not yet delivered, then the end. *)
Lemma drained_read {St} (rd : source St) P k fuel d s chars : feeds rd P k -> 0 <= k -> drained P fuel d s ->
  exists r d' s', dr_read rd fuel d s chars = (Ok (Some r), (d', s')) /\ drained P fuel d' s' /\ dr_dec d = r ++ dr_dec d'.
Proof.
  intros HF HK0 (HO & (a & HKey) & (h & HH) & (c & HC) & HL & m & HP & HFu).
  rewrite (dr_read_body rd fuel d s chars a h c HO HKey HH HC). unfold dr_body.
  destruct (dr_fill_feeds rd P k fuel HF HK0 fuel d s [] m HP) as (x & data & avail & s' & t' & m' & E & ET & HP' & HM & R1 & R2);
    [cbn [length]; lia | cbn [length]; lia|].
  symmetry in ET. apply app_eq_nil in ET as [-> ->]. rewrite E. rewrite app_nil_r in *.
  destruct avail.
  { destruct (R2 eq_refl) as (HN & _ & keep & EK & LK). exfalso. rewrite EK, len_app in HL. pose proof (len_nonneg data). lia. }
  destruct (R1 eq_refl) as [_ ->]. change (-20) with (Z.opp 20).
  assert (E0 : slice_to (dr_enc d) (Z.opp 20) = []).
  { rewrite slice_to_neg by lia. replace (length (dr_enc d) - Z.to_nat 20)%nat with O by (unfold len in HL; lia). reflexivity. }
  rewrite E0. change (len (@nil byte) =? 0) with true. cbv iota. cbn [finish].
  assert (ES : set_enc d (dr_enc d) = d) by (destruct d; reflexivity). rewrite ES.
  destruct (dr_deliver_spec d chars false) as (r & rest & -> & ED & _). exists r, (set_dec d rest), s'.
  split; [destruct r; reflexivity|]. split; [|exact ED].
  split; [exact HO|]. split; [exists a; exact HKey|]. split; [exists h; exact HH|]. split; [exists c; exact HC|]. split; [exact HL|]. exists m'. split; [exact HP' | lia].
Qed.

Lemma drained_reads {St} (rd : source St) P k fuel : feeds rd P k -> 0 <= k -> forall cs d s, drained P fuel d s ->
  Forall (fun x => exists o, x = Ok (Some o)) (dr_reads rd fuel d s cs) /\ exists tail, dr_dec d = delivered (dr_reads rd fuel d s cs) ++ tail.
Proof.
  intros HF HK. induction cs as [|c cs IH]; intros d s HD; cbn [dr_reads]; [split; [constructor | exists (dr_dec d); reflexivity]|].
  destruct (drained_read rd P k fuel d s c HF HK HD) as (r & d' & s' & E & HD' & ED). rewrite E. cbn [fst snd]. destruct (IH d' s' HD') as (I1 & tl & I2).
  split; [constructor; [exists r; reflexivity | exact I1]|]. exists tl. rewrite ED, I2. unfold delivered. cbn [map concat]. rewrite <- app_assoc. reflexivity.
Qed.

Lemma delivered_app xs ys : delivered (xs ++ ys) = delivered xs ++ delivered ys.
Proof. unfold delivered. rewrite map_app, concat_app. reflexivity. Qed.

Lemma delivered_raise ys e zs : delivered (ys ++ Raise e :: zs) = delivered (ys ++ zs).
Proof. rewrite !delivered_app. reflexivity. Qed.

Lemma forged {St} (rd : source St) P k fuel ks a kb hb hdr iv X : feeds rd P k -> 0 <= k <= 3 ->
  addressed ks a kb hb hdr iv X -> ~ authentic hb hdr iv X ->
  forall cs d s out, ready P fuel ks kb hb hdr iv X d s out ->
  (exists blocks rest plain c' tail, X = blocks ++ rest /\ 20 < len rest /\
    cipher_decrypt (MkCipher (key_schedule kb) iv) blocks = Ok (plain, c') /\ plain = out ++ delivered (dr_reads rd fuel d s cs) ++ tail) /\
  exists ys, Forall (fun x => exists o, x = Ok o /\ o <> Some []) ys /\
    let raised := exists zs, dr_reads rd fuel d s cs = ys ++ Raise (bad_exn X) :: zs /\ Forall (fun x => exists o, x = Ok (Some o)) zs in
    (dr_reads rd fuel d s cs = ys \/ raised) /\ ((length X < length out + asking cs)%nat -> raised).
Proof.
  intros HF HK HA HN. assert (HS : aes_size_ok kb) by apply HA. assert (HI : len iv = 16) by apply HA. assert (LX : 20 < len X) by apply HA.
  assert (PRE : forall d s out, ready P fuel ks kb hb hdr iv X d s out ->
    exists blocks rest c', X = blocks ++ rest /\ 20 < len rest /\ cipher_decrypt (MkCipher (key_schedule kb) iv) blocks = Ok (out ++ dr_dec d, c')).
  { intros d s out [(-> & -> & _)|[HM|HE]]; [| |destruct HE; contradiction].
    - exists [], X. eexists. split; [reflexivity|]. split; [exact LX|]. unfold cipher_decrypt. reflexivity.
    - destruct HM as [_ _ (c & cst & t & m & _ & _ & _ & EX & _ & _ & _ & HD & HL)]. exists c, (dr_enc d ++ t), cst. split; [exact EX|]. split; [exact HL | exact HD]. }
  assert (BND : forall d s out, ready P fuel ks kb hb hdr iv X d s out -> (length out <= length X)%nat).
  { intros d s out [(_ & -> & _)|[HM|HE]]; [cbn [length]; lia | apply (mid_out_bound _ _ _ _ _ _ _ _ _ _ HS HI HM) | destruct HE; contradiction]. }
  induction cs as [|c cs IH]; intros d s out HR; cbn [dr_reads].
  - destruct (PRE d s out HR) as (b & r & c' & E1 & E2 & E3). split; [exists b, r, (out ++ dr_dec d), c', (dr_dec d); auto|]. exists []. split; [constructor|]. cbn zeta. split; [left; reflexivity|].
    intros HL. specialize (BND d s out HR). unfold asking in HL. cbn [filter length] in HL. lia.
  - destruct (dr_read_ready rd P k fuel ks a kb hb hdr iv X d s out c HF HK HA HR) as [(r & avail & d' & s' & E & HE & _ & HZ)|(d' & s' & E & _ & HDr & HDec)].
    + destruct avail; cbn [at_or_end] in HE; [|destruct HE; contradiction]. rewrite E. cbn [fst snd].
      destruct (IH d' s' (out ++ r)) as ((b & rest & p & c' & tl & Y2 & Y3 & Y4 & Y5) & ys & Y1 & Y6 & Y7); [right; left; exact HE|]. cbn zeta in *.
      split; [exists b, rest, p, c', tl; split; [exact Y2|]; split; [exact Y3|]; split; [exact Y4|]; rewrite delivered_answer, Y5, <- !app_assoc; reflexivity|].
      exists (Ok (answer r true) :: ys). split; [constructor; [exists (answer r true); split; [reflexivity | destruct r; discriminate] | exact Y1]|].
      split. { destruct Y6 as [->|(zs & -> & Z)]; [left; reflexivity | right; exists zs; split; [reflexivity | exact Z]]. }
      intros HL. destruct Y7 as (zs & -> & Z); [|exists zs; split; [reflexivity | exact Z]]. rewrite app_length. unfold asking in *. cbn [filter] in HL.
      destruct (c =? 0) eqn:EC; cbn [negb] in HL; [lia|]. cbn [length] in HL. destruct r as [|x r]; [destruct (HZ ltac:(lia) eq_refl); discriminate | cbn [length]; lia].
    + rewrite E. cbn [fst snd]. destruct (PRE d s out HR) as (b & r & c' & E1 & E2 & E3). destruct (drained_reads rd P k fuel HF ltac:(lia) cs d' s' HDr) as (Z & tl & ET).
      split; [exists b, r, (out ++ dr_dec d), c', tl; split; [exact E1|]; split; [exact E2|]; split; [exact E3|]; rewrite <- HDec, ET; reflexivity|].
      exists []. split; [constructor|]. cbn zeta. split; [right | intros _]; eexists; (split; [reflexivity | exact Z]).
Qed.

(** However the reads are made and whatever the channel does, a stream that is addressed to an AES key of the set and is not
    authentic is exposed. *)
Theorem C53_forged_streams : forall ks a kb hb hdr iv X plan fuel cs,
  addressed ks a kb hb hdr iv X -> ~ authentic hb hdr iv X -> (length plan + length (hdr ++ iv ++ X) < fuel)%nat ->
  exposed kb iv X cs (dr_reads chan_read fuel (CreateDecryptingStreamReader ks) (MkChan plan (hdr ++ iv ++ X)) cs).
Proof.
  intros ks a kb hb hdr iv X plan fuel cs HA HN HFu.
  apply (forged chan_read chan_at 1 fuel ks a kb hb hdr iv X chan_feeds ltac:(lia) HA HN cs (CreateDecryptingStreamReader ks) (MkChan plan (hdr ++ iv ++ X)) []).
  left; repeat split; exists (length plan); split; [split; reflexivity | exact HFu].
Qed.
Print Assumptions C53_forged_streams.

(** The same when the stream is read as Base64. *)
Theorem C53_forged_streams_base64 : forall ks a kb hb hdr iv X ct plan fuel fuel' cs,
  addressed ks a kb hb hdr iv X -> ~ authentic hb hdr iv X -> ct = Base64WSEncode (hdr ++ iv ++ X) ->
  (length plan + length ct < fuel')%nat -> (length ct < fuel)%nat ->
  exposed kb iv X cs (dr_reads (b64_source chan_read fuel') fuel (CreateDecryptingStreamReader ks) (br_new (MkChan plan ct)) cs).
Proof.
  intros ks a kb hb hdr iv X ct plan fuel fuel' cs HA HN -> HFu1 HFu2. set (raw := hdr ++ iv ++ X) in *.
  apply (forged (b64_source chan_read fuel') (b64_at chan_at fuel') 3 fuel ks a kb hb hdr iv X (b64_feeds chan_read chan_at fuel' chan_feeds) ltac:(lia) HA HN cs
    (CreateDecryptingStreamReader ks) (br_new (MkChan plan (Base64WSEncode raw))) []).
  left. split; [reflexivity|]. split; [reflexivity|]. exists 0%nat. split.
  - destruct (decoded_encode raw) as [E1 E2]. split; [reflexivity|]. split; [reflexivity|].
    pose proof (br_new_at chan_at fuel' (MkChan plan (Base64WSEncode raw)) (Base64WSEncode raw) (length plan)) as B. rewrite E1, E2 in B.
    apply B; [split; reflexivity | apply encode_good | exact HFu1].
  - fold raw. pose proof (len_encode raw) as L. pose proof (len_nonneg raw) as L0.
    assert (len raw <= len (Base64WSEncode raw)) by (rewrite L; apply Z.div_le_lower_bound; lia). unfold len in *. lia.
Qed.
Print Assumptions C53_forged_streams_base64.

(** Blocks before the last one of a ciphertext decrypt to the beginning of the data. *)
Lemma released kb iv body p blocks r2 plain c1 c' : aes_size_ok kb -> len iv = 16 -> len body mod 16 = 0 -> cipher_decrypt (MkCipher (key_schedule kb) iv) body = Ok (Pad p, c1) ->
  body = blocks ++ r2 -> r2 <> [] -> cipher_decrypt (MkCipher (key_schedule kb) iv) blocks = Ok (plain, c') -> exists tail, p = plain ++ tail.
Proof.
  intros HS LI MB EC EB2 NR2 Y4.
  pose proof (AES_new_ok kb iv _ (AES_new_iff kb iv HS LI)) as HOK.
  destruct (len_decrypt _ _ _ _ HOK Y4) as [LP LM].
  assert (MR : len r2 mod 16 = 0) by (rewrite EB2, len_app in MB; rewrite Z.add_mod, LM in MB by lia; cbn [Z.add] in MB; rewrite Z.mod_mod in MB by lia; exact MB).
  rewrite EB2, cipher_decrypt_app, Y4 in EC by assumption. cbn [bind] in EC. destruct (cipher_decrypt c' r2) as [[p2 c2]|] eqn:E5; cbn [bind] in EC; [|discriminate].
  apply Ok_inj, pair_inj in EC as [EC _].
  assert (HOK' : cipher_ok c') by (destruct (cipher_decrypt_ok _ _ HOK LM) as (o & c3 & E6 & H6 & _); rewrite Y4 in E6; apply Ok_inj, pair_inj in E6 as [_ <-]; exact H6).
  destruct (len_decrypt _ _ _ _ HOK' E5) as [LP2 _].
  unfold Pad in EC. set (pad := block_size - len p mod block_size) in EC. change block_size with 16 in pad.
  assert (16 <= len p2). { rewrite LP2. destruct r2 as [|x r2]; [contradiction|]. pose proof (len_nonneg r2). rewrite len_cons in *. pose proof (Z.div_mod (1 + len r2) 16 ltac:(lia)). lia. }
  assert (LE : len plain <= len p). { pose proof (f_equal len EC) as LL. rewrite !len_app in LL. unfold rep in LL. unfold len at 4 in LL. rewrite repeat_length in LL. pose proof (Z.mod_pos_bound (len p) 16 ltac:(lia)). lia. }
  destruct (split_at p (len plain)) as (q1 & q2 & -> & LQ); [pose proof (len_nonneg plain); lia|].
  rewrite <- app_assoc in EC. destruct (app_inv_len _ _ _ _ EC) as [-> _]; [lia|]. exists q2. reflexivity.
Qed.

Lemma shorter_prefix {A} (a b c d : list A) : a ++ b = c ++ d -> len a < len c -> exists r, c = a ++ r /\ r <> [].
Proof.
  intros E L. destruct (split_at c (len a)) as (c1 & c2 & -> & L1); [pose proof (len_nonneg a); lia|]. rewrite <- app_assoc in E. destruct (app_inv_len _ _ _ _ E) as [-> _]; [lia|].
  exists c2. split; [reflexivity|]. intros ->. rewrite app_nil_r in L. lia.
Qed.

(** In particular: a ciphertext with another tag, read to the end, raises InvalidSignatureError, and all that is delivered, even to a
    caller who ignores the exception, is a beginning of the data. *)
Theorem C53_changed_tag : forall e ks k kb hb p raw ks' n' tag' plan fuel cs,
  aes_primary ks k kb hb -> holds ks' n' (KAes k) -> Encrypt e ks p None = Ok raw ->
  len tag' = 20 -> tag' <> slice_from raw (-20) -> let changed := slice_to raw (-20) ++ tag' in
  (length plan + length changed < fuel)%nat -> (length changed < asking cs)%nat ->
  exists ys zs, dr_reads chan_read fuel (CreateDecryptingStreamReader ks') (MkChan plan changed) cs = ys ++ Raise InvalidSignatureError :: zs /\
    Forall (fun x => exists o, x = Ok o /\ o <> Some []) ys /\ exists tail, p = delivered (ys ++ zs) ++ tail.
Proof.
  intros e ks k kb hb p raw ks' n' tag' plan fuel cs HA HV EE LT HT changed HFu HAs.
  destruct (encrypted_stream e ks k kb hb p raw ks' n' HA HV EE) as (hdr & X & -> & (LH & LI & LX & EP & HM & HS) & (body & tag & EX & LT0 & MB & ET) & (body1 & tag1 & c1 & EX1 & LT1 & _ & EC)).
  subst X. set (iv := RandBytes (e_tape e) 16) in *. unfold changed in *.
  replace (hdr ++ iv ++ body ++ tag) with ((hdr ++ iv ++ body) ++ tag) in * by (rewrite <- !app_assoc; reflexivity).
  change (-20) with (Z.opp 20) in *. rewrite slice_to_neg_app in * by lia. rewrite slice_from_neg_app in HT by lia. rewrite <- !app_assoc in *.
  assert (HA' : addressed ks' k kb hb hdr iv (body ++ tag')) by (split; [exact LH|]; split; [exact LI|]; split; [rewrite len_app in *; lia|]; split; [exact EP|]; split; assumption).
  assert (HN : ~ authentic hb hdr iv (body ++ tag')).
  { intros (b2 & t2 & E3 & L3 & M3 & E4). assert (HB : body = b2 /\ tag' = t2) by (apply (app_inv_len_r _ _ _ _ E3); lia). destruct HB as [<- <-]. apply HT. rewrite ET, E4. reflexivity. }
  destruct (C53_forged_streams ks' k kb hb hdr iv (body ++ tag') plan fuel cs HA' HN HFu) as ((blocks & rest & plain & c' & tl & Y2 & Y3 & Y4 & Y5) & ys & Y1 & _ & Y7).
  destruct Y7 as (zs & Y7 & Z); [rewrite !app_length in HAs; rewrite app_length; lia|].
  assert (EB : bad_exn (body ++ tag') = InvalidSignatureError).
  { unfold bad_exn. rewrite len_app, LT. replace (len body + 20 - 20) with (len body) by lia. rewrite MB. reflexivity. }
  rewrite EB in Y7. exists ys, zs. split; [exact Y7|]. split; [exact Y1|]. rewrite Y7, delivered_raise in Y5.
  assert (HB : body1 = body /\ tag1 = tag) by (symmetry in EX1; apply (app_inv_len_r _ _ _ _ EX1); lia). destruct HB as [-> ->].
  destruct (shorter_prefix blocks rest body tag' (eq_sym Y2)) as (r2 & EB2 & NR2); [pose proof (f_equal len Y2) as LY; rewrite !len_app in LY; lia|].
  destruct (released kb iv body p blocks r2 plain c1 c' HS LI MB EC EB2 NR2 Y4) as (q & ->). rewrite Y5. exists (tl ++ q). rewrite <- app_assoc. reflexivity.
Qed.
Print Assumptions C53_changed_tag.

(** A ciphertext cut off behind its first 41 bytes, read to the end, raises unless the twenty bytes it now ends with are the tag of what
    is before them, and all that is delivered is a beginning of the data. *)
Theorem C53_truncated : forall e ks k kb hb p raw ks' n' m plan fuel cs,
  aes_primary ks k kb hb -> holds ks' n' (KAes k) -> Encrypt e ks p None = Ok raw ->
  41 < m < len raw -> let cut := slice_to raw m in slice_from cut (-20) <> hmac_sha1 hb (slice_to cut (-20)) ->
  (length plan + length cut < fuel)%nat -> (length cut < asking cs)%nat ->
  exists ys zs, dr_reads chan_read fuel (CreateDecryptingStreamReader ks') (MkChan plan cut) cs =
      ys ++ Raise (if (m - 41) mod 16 =? 0 then InvalidSignatureError else ValueError) :: zs /\
    Forall (fun x => exists o, x = Ok o /\ o <> Some []) ys /\ exists tail, p = delivered (ys ++ zs) ++ tail.
Proof.
  intros e ks k kb hb p raw ks' n' m plan fuel cs HA HV EE HL cut HT HFu HAs.
  destruct (encrypted_stream e ks k kb hb p raw ks' n' HA HV EE) as (hdr & X & -> & (LH & LI & LX & EP & HM & HS) & (body & tag & EX & LT0 & MB & ET) & (body1 & tag1 & c1 & EX1 & LT1 & _ & EC)).
  subst X. set (iv := RandBytes (e_tape e) 16) in *. rewrite len_app, (len_app iv), len_app in HL. rewrite len_app in LX.
  destruct (split_at (body ++ tag) (m - 21)) as (X & X2 & ES & LX1); [rewrite len_app; lia|].
  assert (EQ : cut = hdr ++ iv ++ X). { unfold cut. rewrite ES. replace (hdr ++ iv ++ X ++ X2) with ((hdr ++ iv ++ X) ++ X2) by (rewrite <- !app_assoc; reflexivity). apply slice_to_app. rewrite !len_app. lia. }
  rewrite EQ in *.
  assert (HA' : addressed ks' k kb hb hdr iv X) by (split; [exact LH|]; split; [exact LI|]; split; [lia|]; split; [exact EP|]; split; assumption).
  assert (HN : ~ authentic hb hdr iv X).
  { intros (b2 & t2 & -> & L3 & M3 & E4). apply HT. replace (hdr ++ iv ++ b2 ++ t2) with ((hdr ++ iv ++ b2) ++ t2) by (rewrite <- !app_assoc; reflexivity).
    change (-20) with (Z.opp 20). rewrite slice_to_neg_app, slice_from_neg_app by lia. exact E4. }
  destruct (C53_forged_streams ks' k kb hb hdr iv X plan fuel cs HA' HN HFu) as ((blocks & rest & plain & c' & tl & Y2 & Y3 & Y4 & Y5) & ys & Y1 & _ & Y7).
  destruct Y7 as (zs & Y7 & Z); [rewrite !app_length in HAs; lia|].
  unfold bad_exn in Y7. rewrite LX1 in Y7. replace (m - 21 - 20) with (m - 41) in Y7 by lia. exists ys, zs. split; [exact Y7|]. split; [exact Y1|]. rewrite Y7, delivered_raise in Y5.
  assert (HB : body1 = body /\ tag1 = tag) by (symmetry in EX1; apply (app_inv_len_r _ _ _ _ EX1); lia). destruct HB as [-> ->].
  rewrite Y2, <- app_assoc in ES. destruct (shorter_prefix blocks (rest ++ X2) body tag (eq_sym ES)) as (r2 & EB2 & NR2).
  { pose proof (f_equal len ES) as LY. pose proof (len_nonneg X2). rewrite !len_app in LY. lia. }
  destruct (released kb iv body p blocks r2 plain c1 c' HS LI MB EC EB2 NR2 Y4) as (q & ->). rewrite Y5. exists (tl ++ q). rewrite <- app_assoc. reflexivity.
Qed.
Print Assumptions C53_truncated.

(** A cut inside a block never makes an authentic stream. *)
Theorem C53_truncated_inside_a_block : forall e ks k kb hb p raw ks' n' m plan fuel cs,
  aes_primary ks k kb hb -> holds ks' n' (KAes k) -> Encrypt e ks p None = Ok raw ->
  41 < m < len raw -> (m - 41) mod 16 <> 0 -> let cut := slice_to raw m in
  (length plan + length cut < fuel)%nat -> (length cut < asking cs)%nat ->
  exists ys zs, dr_reads chan_read fuel (CreateDecryptingStreamReader ks') (MkChan plan cut) cs = ys ++ Raise ValueError :: zs /\
    Forall (fun x => exists o, x = Ok o /\ o <> Some []) ys /\ exists tail, p = delivered (ys ++ zs) ++ tail.
Proof.
  intros e ks k kb hb p raw ks' n' m plan fuel cs HA HV EE HL HM0 cut HFu HAs.
  destruct (encrypted_stream e ks k kb hb p raw ks' n' HA HV EE) as (hdr & X & -> & (LH & LI & LX & EP & HM & HS) & (body & tag & EX & LT0 & MB & ET) & (body1 & tag1 & c1 & EX1 & LT1 & _ & EC)).
  subst X. set (iv := RandBytes (e_tape e) 16) in *. rewrite len_app, (len_app iv), len_app in HL. rewrite len_app in LX.
  destruct (split_at (body ++ tag) (m - 21)) as (X & X2 & ES & LX1); [rewrite len_app; lia|].
  assert (EQ : cut = hdr ++ iv ++ X). { unfold cut. rewrite ES. replace (hdr ++ iv ++ X ++ X2) with ((hdr ++ iv ++ X) ++ X2) by (rewrite <- !app_assoc; reflexivity). apply slice_to_app. rewrite !len_app. lia. }
  rewrite EQ in *.
  assert (HA' : addressed ks' k kb hb hdr iv X) by (split; [exact LH|]; split; [exact LI|]; split; [lia|]; split; [exact EP|]; split; assumption).
  assert (HN : ~ authentic hb hdr iv X).
  { intros (b2 & t2 & -> & L3 & M3 & E4). rewrite len_app in LX1. apply HM0. replace (m - 41) with (len b2) by lia. exact M3. }
  destruct (C53_forged_streams ks' k kb hb hdr iv X plan fuel cs HA' HN HFu) as ((blocks & rest & plain & c' & tl & Y2 & Y3 & Y4 & Y5) & ys & Y1 & _ & Y7).
  destruct Y7 as (zs & Y7 & Z); [rewrite !app_length in HAs; lia|].
  unfold bad_exn in Y7. rewrite LX1 in Y7. replace (m - 21 - 20) with (m - 41) in Y7 by lia. rewrite (proj2 (Z.eqb_neq _ _) HM0) in Y7. exists ys, zs. split; [exact Y7|]. split; [exact Y1|]. rewrite Y7, delivered_raise in Y5.
  assert (HB : body1 = body /\ tag1 = tag) by (symmetry in EX1; apply (app_inv_len_r _ _ _ _ EX1); lia). destruct HB as [-> ->].
  rewrite Y2, <- app_assoc in ES. destruct (shorter_prefix blocks (rest ++ X2) body tag (eq_sym ES)) as (r2 & EB2 & NR2).
  { pose proof (f_equal len ES) as LY. pose proof (len_nonneg X2). rewrite !len_app in LY. lia. }
  destruct (released kb iv body p blocks r2 plain c1 c' HS LI MB EC EB2 NR2 Y4) as (q & ->). rewrite Y5. exists (tl ++ q). rewrite <- app_assoc. reflexivity.
Qed.
Print Assumptions C53_truncated_inside_a_block.

(** The key of testdata/aes, 37 zero bytes behind header and IV, and forty calls of [read(1)]. *)
Example C53_forged_case : exists ks a kb hb hdr iv X, addressed ks a kb hb hdr iv X /\ ~ authentic hb hdr iv X /\ (length X < asking (repeat 1%Z 40))%nat.
Proof.
  destruct aes_case as (k & kb & hb & (HG & HM & HS) & B). destruct (aes_header_ok k kb hb HM) as (id & _ & L4 & HH & _).
  exists aes_set, k, kb, hb, (x00 :: id), (rep 16 x00), (rep 37 x00). split; [|split].
  - split; [rewrite len_cons, L4; reflexivity|]. split; [reflexivity|]. split; [reflexivity|]. split; [apply (header_find aes_set 2 (KAes k) id B HH L4)|]. split; assumption.
  - intros (body & tag & E & LT & M & _). apply (f_equal len) in E. rewrite len_app, LT in E. change (len (rep 37 x00)) with 37 in E.
    assert (len body = 17) as L by lia. rewrite L in M. discriminate.
  - change (asking (repeat 1 40)) with 40%nat. change (length (rep 37 x00)) with 37%nat. lia.
Qed.

(** A ciphertext of testdata/aes for two bytes of data has 57 bytes: cuts at 42 to 56 and any other tag are covered. *)
Example C53_truncated_case : exists e k kb hb raw, aes_primary aes_set k kb hb /\ holds aes_set 2 (KAes k) /\ Encrypt e aes_set (bs "hi") None = Ok raw /\
  len raw = 57 /\ (42 - 41) mod 16 <> 0 /\ exists tag', len tag' = 20 /\ tag' <> slice_from raw (-20).
Proof.
  destruct aes_case as (k & kb & hb & HA & HV). exists zero_env, k, kb, hb. destruct (aes_primary_Encrypt zero_env aes_set k kb hb (bs "hi") HA) as (hdr & EH & LH & EP & LB & EE).
  eexists. split; [exact HA|]. split; [exact HV|]. split; [exact EE|].
  assert (LI : len (RandBytes (e_tape zero_env) 16) = 16) by (apply len_RandBytes; lia).
  split; [rewrite !len_app, len_hmac, LH, LI, LB; reflexivity|]. split; [discriminate|].
  match goal with |- exists t, _ /\ t <> ?u => set (u0 := u) end.
  destruct (list_eq_dec Byte.byte_eq_dec u0 (rep 20 x00)) as [->|N]; [exists (rep 20 x01); split; [reflexivity | discriminate] | exists (rep 20 x00); split; [reflexivity | congruence]].
Qed.

(** ** After a bad header *)

(** A header that is refused is gone: the next read takes what follows for the beginning of a stream.  In particular a whole stream with
    five foreign bytes before it is read to its clean end by a caller who goes on after the exception (here on a
    channel that delivers what is asked for). *)
Theorem C53_reads_after_a_bad_header : forall ks hdr rest fuel c cs e, len hdr = 5 -> ParseHeader ks hdr = Raise e -> (0 < fuel)%nat ->
  dr_reads chan_read fuel (CreateDecryptingStreamReader ks) (MkChan [] (hdr ++ rest)) (c :: cs) =
  Raise e :: dr_reads chan_read fuel (CreateDecryptingStreamReader ks) (MkChan [] rest) cs.
Proof.
  intros ks hdr rest fuel c cs e LH EP HFu. destruct fuel as [|fuel]; [lia|].
  assert (E : ReadBytes chan_read (S fuel) (MkChan [] (hdr ++ rest)) 5 true [] = (Ok (hdr, true), MkChan [] rest)).
  { cbn [ReadBytes]. unfold chan_read at 1. cbn [ch_plan ch_rest]. change (5 <? 0) with false. change (5 =? 0) with false. cbv iota. unfold chan_take. cbn [ch_rest].
    rewrite firstn_app_exact, skipn_app_exact by (unfold len in LH; lia). destruct hdr as [|x hdr]; [discriminate|]. cbn [app]. rewrite LH. reflexivity. }
  assert (ET : slice_to hdr 5 = hdr) by (rewrite <- (app_nil_r hdr) at 1; apply slice_to_app; lia).
  assert (ES : slice_from hdr 5 = []) by (rewrite <- (app_nil_r hdr) at 1; apply slice_from_app; lia).
  assert (ER : dr_read chan_read (S fuel) (CreateDecryptingStreamReader ks) (MkChan [] (hdr ++ rest)) c = (Raise e, (CreateDecryptingStreamReader ks, MkChan [] rest))).
  { unfold dr_read, dr_CreateKey, CreateDecryptingStreamReader, set_enc, set_key, set_hmac. cbn [dr_key dr_cipher dr_ks dr_hmac dr_enc dr_dec dr_closed].
    change (HEADER_SIZE - len (@nil byte)) with 5. rewrite E. cbn [dr_key dr_cipher dr_ks dr_hmac dr_enc dr_dec dr_closed app]. change HEADER_SIZE with 5. rewrite LH. change (5 <=? 5) with true. cbv iota.
    rewrite ET, EP, ES. reflexivity. }
  cbn [dr_reads]. rewrite ER. reflexivity.
Qed.
Print Assumptions C53_reads_after_a_bad_header.

(** testdata/aes has no key with the identifier 0000, so that five zero bytes are refused. *)
Example C53_bad_header_case : exists e, ParseHeader aes_set (rep 5 x00) = Raise e.
Proof. eexists. vm_compute. reflexivity. Qed.
