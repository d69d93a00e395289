(** * Props_Indep2: streams and sessions depend on the keys they use, and on nothing else in the key sets (C92). *)
From Coq Require Import Strings.String.
From Coq Require Import List ZArith NArith Bool Lia ZifyBool ZifyNat ZifyN.
From Coq.Init Require Import Byte.
From Verif Require Import PyBase PyFacts Base64 Base64Facts Sha1 Util UtilFacts Json JsonFacts KeyInfo KeyData Aes SymKeys SymFacts AsymKeys Keys KeysFacts Keyczar KeyRing KeyczarFacts Session
  Streams StreamFacts Props_Util Props_Sym Props_Keyset Props_Sign Disk DiskFacts Props_Disk Props_Open Threads Props_Threads Props_Forge Props_Indep Props_Stream.
Import ListNotations.
Local Open Scope Z_scope.
Ltac Zify.zify_post_hook ::= idtac.

(** ** Lemmas *)

(** The same reader with another key set. *)
Definition with_ks (ks : keyset) (d : dsr) : dsr := MkDsr ks (dr_key d) (dr_hmac d) (dr_cipher d) (dr_enc d) (dr_dec d) (dr_closed d).
Definition swap {A St} (ks : keyset) (r : res A * (dsr * St)) : res A * (dsr * St) := (fst r, (with_ks ks (fst (snd r)), snd (snd r))).

Lemma fill_swap {St} (rd : source St) ks fuel' : forall fuel d s, dr_fill rd fuel' fuel (with_ks ks d) s = swap ks (dr_fill rd fuel' fuel d s).
Proof.
  induction fuel as [|fuel IH]; intros d s; [reflexivity|]. cbn [dr_fill]. destruct (ReadBytes rd fuel' s block_size false []) as [[[b av]|e] s']; [|reflexivity].
  change (dr_enc (with_ks ks d)) with (dr_enc d). change (set_enc (with_ks ks d) (dr_enc d ++ b)) with (with_ks ks (set_enc d (dr_enc d ++ b))).
  set (d' := set_enc d (dr_enc d ++ b)). change (dr_enc (with_ks ks d')) with (dr_enc d'). cbv zeta.
  match goal with |- (if ?c then _ else _) = _ => destruct c end; [apply IH | reflexivity].
Qed.

Lemma consume_swap ks h c d x av : dr_consume h c (with_ks ks d) x av = (fst (dr_consume h c d x av), with_ks ks (snd (dr_consume h c d x av))).
Proof.
  unfold dr_consume. destruct (cipher_decrypt c x) as [[dd c']|e]; [|reflexivity]. destruct av; [reflexivity|]. cbn [set_enc set_hmac set_cipher dr_enc with_ks dr_hmac dr_cipher dr_key dr_dec dr_closed dr_ks].
  destruct (negb (len _ =? HLEN)); [reflexivity|]. destruct (negb (VerifySignedData _ _)); [reflexivity|]. destruct (UnPad dd); reflexivity.
Qed.

Lemma body_swap {St} (rd : source St) ks fuel d s : dr_body rd fuel (with_ks ks d) s = swap ks (dr_body rd fuel d s).
Proof.
  unfold dr_body. rewrite fill_swap. destruct (dr_fill rd fuel fuel d s) as [[[x av]|e] [d' s']]; unfold swap at 1; cbn [fst snd]; [|reflexivity].
  destruct (len x =? 0); [reflexivity|]. change (dr_hmac (with_ks ks d')) with (dr_hmac d'). change (dr_cipher (with_ks ks d')) with (dr_cipher d').
  destruct (dr_hmac d') as [h|]; [|reflexivity]. destruct (dr_cipher d') as [c|]; [|reflexivity]. rewrite consume_swap. destruct (dr_consume h c d' x av) as [[u|e] d'']; reflexivity.
Qed.

Lemma cipher_swap {St} (rd : source St) ks fuel k d s : dr_CreateCipher rd fuel k (with_ks ks d) s = swap ks (dr_CreateCipher rd fuel k d s).
Proof.
  unfold dr_CreateCipher. destruct k as [a|?|?|?|?|?]; try reflexivity. change (dr_enc (with_ks ks d)) with (dr_enc d).
  destruct (ReadBytes rd fuel s _ true []) as [[[b av]|e] s']; [|reflexivity]. cbn [set_enc with_ks dr_enc dr_hmac dr_key dr_cipher dr_dec dr_closed dr_ks].
  destruct (block_size <=? _); [|reflexivity]. destruct (dr_hmac d) as [h|]; [|reflexivity]. destruct (let* kb := aes_bytes a in AES_new kb _) as [c|e]; reflexivity.
Qed.

Lemma key_swap {St} (rd : source St) ks fuel d s :
  (forall b av s', ReadBytes rd fuel s (HEADER_SIZE - len (dr_enc d)) true [] = (Ok (b, av), s') -> HEADER_SIZE <= len (dr_enc d ++ b) ->
     ParseHeader ks (slice_to (dr_enc d ++ b) HEADER_SIZE) = ParseHeader (dr_ks d) (slice_to (dr_enc d ++ b) HEADER_SIZE)) ->
  dr_CreateKey rd fuel (with_ks ks d) s = swap ks (dr_CreateKey rd fuel d s).
Proof.
  intros H. unfold dr_CreateKey. change (dr_enc (with_ks ks d)) with (dr_enc d). destruct (ReadBytes rd fuel s _ true []) as [[[b av]|e] s'] eqn:E; [|reflexivity].
  cbn [set_enc with_ks dr_enc dr_hmac dr_key dr_cipher dr_dec dr_closed dr_ks]. destruct (Z.leb_spec HEADER_SIZE (len (dr_enc d ++ b))) as [L|L]; [|reflexivity].
  rewrite (H b av s' eq_refl L). destruct (ParseHeader (dr_ks d) _) as [k|e]; [|reflexivity]. destruct (let* hk := key_hmac_key k in CreateStreamable hk) as [h|e]; reflexivity.
Qed.

Lemma read_swap {St} (rd : source St) ks fuel d s chars :
  (dr_key d = None -> forall b av s', ReadBytes rd fuel s (HEADER_SIZE - len (dr_enc d)) true [] = (Ok (b, av), s') -> HEADER_SIZE <= len (dr_enc d ++ b) ->
     ParseHeader ks (slice_to (dr_enc d ++ b) HEADER_SIZE) = ParseHeader (dr_ks d) (slice_to (dr_enc d ++ b) HEADER_SIZE)) ->
  dr_read rd fuel (with_ks ks d) s chars = swap ks (dr_read rd fuel d s chars).
Proof.
  intros H. unfold dr_read. change (dr_closed (with_ks ks d)) with (dr_closed d). destruct (dr_closed d); [reflexivity|]. change (dr_key (with_ks ks d)) with (dr_key d).
  assert (A : (match dr_key d with Some _ => (Ok true, (with_ks ks d, s)) | None => dr_CreateKey rd fuel (with_ks ks d) s end)
            = swap ks (match dr_key d with Some _ => (Ok true, (d, s)) | None => dr_CreateKey rd fuel d s end)).
  { destruct (dr_key d) eqn:EK; [reflexivity|]. apply key_swap, H. reflexivity. }
  rewrite A. clear A H. destruct (match dr_key d with Some _ => _ | None => _ end) as [[av|e] [d1 s1]]; unfold swap at 1; cbn [fst snd]; [|reflexivity].
  change (dr_key (with_ks ks d1)) with (dr_key d1). change (dr_cipher (with_ks ks d1)) with (dr_cipher d1).
  assert (B : (match av, dr_key d1, dr_cipher d1 with true, Some k, None => dr_CreateCipher rd fuel k (with_ks ks d1) s1 | _, _, _ => (Ok av, (with_ks ks d1, s1)) end)
            = swap ks (match av, dr_key d1, dr_cipher d1 with true, Some k, None => dr_CreateCipher rd fuel k d1 s1 | _, _, _ => (Ok av, (d1, s1)) end)).
  { destruct av, (dr_key d1), (dr_cipher d1); try reflexivity. apply cipher_swap. }
  rewrite B. clear B. destruct (match av, dr_key d1, dr_cipher d1 with true, Some k, None => _ | _, _, _ => _ end) as [[av2|e] [d2 s2]]; unfold swap at 1; cbn [fst snd]; [|reflexivity].
  change (dr_key (with_ks ks d2)) with (dr_key d2). change (dr_cipher (with_ks ks d2)) with (dr_cipher d2).
  assert (B : (match av2, dr_key d2, dr_cipher d2 with true, Some _, Some _ => dr_body rd fuel (with_ks ks d2) s2 | _, _, _ => (Ok av2, (with_ks ks d2, s2)) end)
            = swap ks (match av2, dr_key d2, dr_cipher d2 with true, Some _, Some _ => dr_body rd fuel d2 s2 | _, _, _ => (Ok av2, (d2, s2)) end)).
  { destruct av2, (dr_key d2), (dr_cipher d2); try reflexivity. apply body_swap. }
  rewrite B. clear B. destruct (match av2, dr_key d2, dr_cipher d2 with true, Some _, Some _ => _ | _, _, _ => _ end) as [[av3|e] [d3 s3]]; unfold swap at 1; cbn [fst snd]; [|reflexivity].
  unfold dr_deliver. change (dr_dec (with_ks ks d3)) with (dr_dec d3). destruct (if chars <? 0 then (dr_dec d3, []) else _) as [r1 r2]. reflexivity.
Qed.

(** The reader keeps its set, and its key once it has one. *)
Lemma fill_keeps {St} (rd : source St) fuel' : forall fuel d s r d' s', dr_fill rd fuel' fuel d s = (r, (d', s')) -> dr_ks d' = dr_ks d /\ dr_key d' = dr_key d.
Proof.
  induction fuel as [|fuel IH]; intros d s r d' s' H; cbn [dr_fill] in H; [injection H as _ <- _; auto|].
  destruct (ReadBytes rd fuel' s block_size false []) as [[[b av]|e] s1]; [|injection H as _ <- _; auto]. cbv zeta in H.
  match type of H with (if ?c then _ else _) = _ => destruct c end; [apply IH in H as [-> ->]; auto | injection H as _ <- _; auto].
Qed.
Lemma consume_keeps h c d x av r d' : dr_consume h c d x av = (r, d') -> dr_ks d' = dr_ks d /\ dr_key d' = dr_key d.
Proof.
  unfold dr_consume. destruct (cipher_decrypt c x) as [[dd c']|e]; intros H; [|injection H as _ <-; auto]. destruct av; [injection H as _ <-; auto|].
  destruct (negb (len _ =? HLEN)); [injection H as _ <-; auto|]. destruct (negb (VerifySignedData _ _)); [injection H as _ <-; auto|]. destruct (UnPad dd); injection H as _ <-; auto.
Qed.
Lemma body_keeps {St} (rd : source St) fuel d s r d' s' : dr_body rd fuel d s = (r, (d', s')) -> dr_ks d' = dr_ks d /\ dr_key d' = dr_key d.
Proof.
  unfold dr_body. destruct (dr_fill rd fuel fuel d s) as [[[x av]|e] [d1 s1]] eqn:E; apply fill_keeps in E as [E1 E2]; intros H; [|injection H as _ <- _; auto].
  destruct (len x =? 0); [injection H as _ <- _; auto|]. destruct (dr_hmac d1) as [h|]; [|injection H as _ <- _; auto]. destruct (dr_cipher d1) as [c|]; [|injection H as _ <- _; auto].
  destruct (dr_consume h c d1 x av) as [[u|e] d2] eqn:E; apply consume_keeps in E as [E3 E4]; injection H as _ <- _; rewrite E3, E4; auto.
Qed.
Lemma cipher_keeps {St} (rd : source St) fuel k d s r d' s' : dr_CreateCipher rd fuel k d s = (r, (d', s')) -> dr_ks d' = dr_ks d /\ dr_key d' = dr_key d.
Proof.
  unfold dr_CreateCipher. destruct k as [a|?|?|?|?|?]; intros H; try (injection H as _ <- _; auto; fail).
  destruct (ReadBytes rd fuel s _ true []) as [[[b av]|e] s1]; [|injection H as _ <- _; auto]. cbv zeta in H. destruct (block_size <=? _); [|injection H as _ <- _; auto].
  cbn [set_enc dr_hmac] in H. destruct (dr_hmac d) as [h|]; [|injection H as _ <- _; auto]. destruct (let* kb := aes_bytes a in AES_new kb _) as [c|e]; injection H as _ <- _; auto.
Qed.
Lemma key_keeps {St} (rd : source St) fuel d s r d' s' : dr_CreateKey rd fuel d s = (r, (d', s')) -> dr_ks d' = dr_ks d.
Proof.
  unfold dr_CreateKey. intros H. destruct (ReadBytes rd fuel s _ true []) as [[[b av]|e] s1]; [|injection H as _ <- _; auto]. cbv zeta in H. destruct (HEADER_SIZE <=? _); [|injection H as _ <- _; auto].
  destruct (ParseHeader _ _) as [k|e]; [|injection H as _ <- _; auto]. destruct (let* hk := key_hmac_key k in CreateStreamable hk) as [h|e]; injection H as _ <- _; auto.
Qed.
Lemma read_keeps {St} (rd : source St) fuel d s chars r d' s' : dr_read rd fuel d s chars = (r, (d', s')) -> dr_ks d' = dr_ks d /\ (dr_key d <> None -> dr_key d' = dr_key d).
Proof.
  unfold dr_read. destruct (dr_closed d); intros H; [injection H as _ <- _; auto|].
  assert (A : forall x, (match dr_key d with Some _ => (Ok true, (d, s)) | None => dr_CreateKey rd fuel d s end) = x -> dr_ks (fst (snd x)) = dr_ks d /\ (dr_key d <> None -> dr_key (fst (snd x)) = dr_key d)).
  { intros [r1 [d1 s1]] E. destruct (dr_key d) eqn:EK; [injection E as _ <- _; cbn [fst snd]; auto | split; [exact (key_keeps _ _ _ _ _ _ _ E) | intros C; destruct (C eq_refl)]]. }
  destruct (match dr_key d with Some _ => _ | None => _ end) as [[av|e] [d1 s1]]; destruct (A _ eq_refl) as [A1 A2]; cbn [fst snd] in A1, A2; [|injection H as _ <- _; auto]. clear A.
  assert (B : forall x, (match av, dr_key d1, dr_cipher d1 with true, Some k, None => dr_CreateCipher rd fuel k d1 s1 | _, _, _ => (Ok av, (d1, s1)) end) = x -> dr_ks (fst (snd x)) = dr_ks d1 /\ dr_key (fst (snd x)) = dr_key d1).
  { intros [r2 [d2 s2]] E. destruct av, (dr_key d1) eqn:EK, (dr_cipher d1); try (injection E as _ <- _; cbn [fst snd]; auto; fail). cbn [fst snd]. rewrite <- EK. apply (cipher_keeps _ _ _ _ _ _ _ _ E). }
  destruct (match av, dr_key d1, dr_cipher d1 with true, Some k, None => _ | _, _, _ => _ end) as [[av2|e] [d2 s2]]; destruct (B _ eq_refl) as [B1 B2]; cbn [fst snd] in B1, B2; [|injection H as _ <- _; rewrite B1, B2; auto]. clear B.
  assert (B : forall x, (match av2, dr_key d2, dr_cipher d2 with true, Some _, Some _ => dr_body rd fuel d2 s2 | _, _, _ => (Ok av2, (d2, s2)) end) = x -> dr_ks (fst (snd x)) = dr_ks d2 /\ dr_key (fst (snd x)) = dr_key d2).
  { intros [r3 [d3 s3]] E. destruct av2, (dr_key d2) eqn:EK, (dr_cipher d2); try (injection E as _ <- _; cbn [fst snd]; auto; fail). cbn [fst snd]. rewrite <- EK. apply (body_keeps _ _ _ _ _ _ _ E). }
  destruct (match av2, dr_key d2, dr_cipher d2 with true, Some _, Some _ => _ | _, _, _ => _ end) as [[av3|e] [d3 s3]]; destruct (B _ eq_refl) as [B3 B4]; cbn [fst snd] in B3, B4; [|injection H as _ <- _; rewrite B3, B4, B1, B2; auto].
  unfold dr_deliver in H. destruct (if chars <? 0 then (dr_dec d3, []) else _) as [r1 r2]. injection H as _ <- _. cbn [set_dec dr_ks dr_key]. rewrite B3, B4, B1, B2. auto.
Qed.

(** After the key is found the set is not used. *)
Lemma reads_keyed {St} (rd : source St) ks fuel : forall cs d s, dr_key d <> None -> dr_reads rd fuel (with_ks ks d) s cs = dr_reads rd fuel d s cs.
Proof.
  induction cs as [|c cs IH]; intros d s H; [reflexivity|]. cbn [dr_reads]. rewrite read_swap by (intros C; destruct (H C)).
  destruct (dr_read rd fuel d s c) as [x [d' s']] eqn:E. apply read_keeps in E as [_ E]. unfold swap. cbn [fst snd]. f_equal. apply IH. rewrite (E H). exact H.
Qed.

Lemma has_parse ks h k : inv ks -> len h = 5 -> has_under ks h k -> (forall k', has_under ks h k' -> k' = k) -> ParseHeader ks h = Ok k.
Proof.
  intros I L (HI & HH) U. apply in_map_iff in HI as ([o k'] & E & HI). cbn [snd] in E. subst k'.
  destruct (inv_hash1 ks I o k HI) as (i & k' & HK & HA). destruct (key_header_ok k i HK) as (id & -> & L4 & EH). rewrite HH in EH. apply Ok_inj in EH as ->.
  unfold ParseHeader. change (index (x00 :: id) 0) with (@Ok byte x00). cbn [bind]. change (negb (ord x00 =? VERSION)) with false. cbv iota.
  assert (slice_from (x00 :: id) 1 = id) as -> by (change (x00 :: id) with ([x00] ++ id); apply (slice_from_app [x00] id 1); reflexivity).
  unfold GetKey_hash. rewrite HA. f_equal. apply U. destruct (inv_hash2 ks I _ _ HA) as (HK' & o' & HI').
  split; [apply in_map_iff; exists (o', k'); auto | apply header_of_id; assumption].
Qed.

Lemma stream_first {St} (rd : source St) P kk fuel ks1 ks2 h rest s m k cs : feeds rd P kk -> 0 <= kk -> P s (h ++ rest) m -> (m + length (h ++ rest) < fuel)%nat -> len h = 5 ->
  ParseHeader ks1 h = Ok k -> ParseHeader ks2 h = Ok k ->
  dr_reads rd fuel (CreateDecryptingStreamReader ks1) s cs = dr_reads rd fuel (CreateDecryptingStreamReader ks2) s cs.
Proof.
  intros HF HK HP HFu L P1 P2. destruct cs as [|c cs]; [reflexivity|]. cbn [dr_reads].
  destruct (ReadBytes_feeds rd P kk HF HK fuel s (h ++ rest) m 5 true [] HP ltac:(cbn; lia) HFu) as (y & av & s1 & t1 & m1 & E & ET & _ & _ & R1 & R2 & _). cbn [app] in E, R1, R2.
  assert (LY : 5 <= len y).
  { destruct av; [destruct (R2 eq_refl) as [|[C _]]; [assumption | discriminate C]|]. destruct (R1 eq_refl) as [-> LL]. rewrite app_nil_r in ET. subst y. rewrite len_app in LL. pose proof (len_nonneg rest). lia. }
  assert (HY : slice_to y 5 = h).
  { rewrite slice_to_firstn by lia. assert (Z.to_nat 5 = length h) as -> by (unfold len in L; lia).
    assert (X : firstn (length h) (y ++ t1) = firstn (length h) y) by (rewrite firstn_app; replace (length h - length y)%nat with O by (unfold len in *; lia); apply app_nil_r).
    rewrite <- X, <- ET, firstn_app, Nat.sub_diag, firstn_all. apply app_nil_r. }
  change (CreateDecryptingStreamReader ks1) with (with_ks ks1 (CreateDecryptingStreamReader ks2)). rewrite read_swap.
  2: { intros _ b av' s' E' _. cbn [CreateDecryptingStreamReader dr_enc dr_ks app] in *. change (HEADER_SIZE - len (@nil byte)) with 5 in E'. rewrite E in E'. injection E' as <- <- <-. change HEADER_SIZE with 5. rewrite HY. congruence. }
  destruct (dr_read rd fuel (CreateDecryptingStreamReader ks2) s c) as [x [d' s']] eqn:ER. unfold swap. cbn [fst snd]. f_equal. apply reads_keyed.
  (* the key has been found *)
  revert ER. unfold dr_read. cbn [CreateDecryptingStreamReader dr_closed dr_key]. unfold dr_CreateKey at 1. change (ReadBytes rd fuel s (HEADER_SIZE - len (dr_enc _)) true []) with (ReadBytes rd fuel s 5 true []). rewrite E. cbn [app set_enc dr_enc dr_ks CreateDecryptingStreamReader].
  change HEADER_SIZE with 5. assert ((5 <=? len y) = true) as -> by lia. rewrite HY, P2.
  destruct (let* hk := key_hmac_key k in CreateStreamable hk) as [hs|e]; [|intros H; injection H as _ <- _; discriminate].
  set (d1 := set_hmac _ _). assert (K1 : dr_key d1 = Some k) by reflexivity. intros H.
  assert (B : forall x, (match av, dr_key d1, dr_cipher d1 with true, Some k, None => dr_CreateCipher rd fuel k d1 s1 | _, _, _ => (Ok av, (d1, s1)) end) = x -> dr_key (fst (snd x)) = dr_key d1).
  { intros [r2 [d2 s2]] EB. destruct av, (dr_key d1) eqn:EK, (dr_cipher d1); try (injection EB as _ <- _; cbn [fst snd]; auto; fail). cbn [fst snd]. rewrite <- EK. apply (cipher_keeps _ _ _ _ _ _ _ _ EB). }
  destruct (match av, dr_key d1, dr_cipher d1 with true, Some k, None => _ | _, _, _ => _ end) as [[av2|e] [d2 s2]]; specialize (B _ eq_refl); cbn [fst snd] in B; [|injection H as _ <- _; rewrite B; discriminate].
  assert (B' : forall x, (match av2, dr_key d2, dr_cipher d2 with true, Some _, Some _ => dr_body rd fuel d2 s2 | _, _, _ => (Ok av2, (d2, s2)) end) = x -> dr_key (fst (snd x)) = dr_key d2).
  { intros [r3 [d3 s3]] EB. destruct av2, (dr_key d2) eqn:EK, (dr_cipher d2); try (injection EB as _ <- _; cbn [fst snd]; auto; fail). cbn [fst snd]. rewrite <- EK. apply (body_keeps _ _ _ _ _ _ _ EB). }
  destruct (match av2, dr_key d2, dr_cipher d2 with true, Some _, Some _ => _ | _, _, _ => _ end) as [[av3|e] [d3 s3]]; specialize (B' _ eq_refl); cbn [fst snd] in B'; [|injection H as _ <- _; rewrite B', B; discriminate].
  unfold dr_deliver in H. destruct (if c <? 0 then (dr_dec d3, []) else _) as [r1 r2]. injection H as _ <- _. cbn [set_dec dr_key]. rewrite B', B. discriminate.
Qed.

(** ** Theorems *)

(** Two sets have the key under the header, and neither has another. *)
Definition share (h : str) (ks1 ks2 : keyset) : Prop :=
  exists k, has_under ks1 h k /\ has_under ks2 h k /\ (forall k', has_under ks1 h k' \/ has_under ks2 h k' -> k' = k).

(** Decrypting streams: if the stream begins with the header of a key that two sets share, the reads give
    the same with both, data and exceptions, whatever follows, however the stream arrives and however it is read. *)
Theorem C92_streams : forall ks1 ks2 h rest plan fuel cs, reached ks1 -> reached ks2 -> len h = 5 -> share h ks1 ks2 ->
  (length plan + length (h ++ rest) < fuel)%nat ->
  dr_reads chan_read fuel (CreateDecryptingStreamReader ks1) (MkChan plan (h ++ rest)) cs =
  dr_reads chan_read fuel (CreateDecryptingStreamReader ks2) (MkChan plan (h ++ rest)) cs.
Proof.
  intros ks1 ks2 h rest plan fuel cs R1 R2 L (k & H1 & H2 & U) HFu.
  apply (stream_first chan_read chan_at 1 fuel ks1 ks2 h rest _ (length plan) k cs chan_feeds); try assumption; [lia | split; reflexivity | |];
    apply has_parse; auto; apply reached_inv; assumption.
Qed.
Print Assumptions C92_streams.

Theorem C92_streams_base64 : forall ks1 ks2 h rest ct plan fuel fuel' cs, reached ks1 -> reached ks2 -> len h = 5 -> share h ks1 ks2 ->
  ct = Base64WSEncode (h ++ rest) -> (length plan + length ct < fuel')%nat -> (length ct < fuel)%nat ->
  dr_reads (b64_source chan_read fuel') fuel (CreateDecryptingStreamReader ks1) (br_new (MkChan plan ct)) cs =
  dr_reads (b64_source chan_read fuel') fuel (CreateDecryptingStreamReader ks2) (br_new (MkChan plan ct)) cs.
Proof.
  intros ks1 ks2 h rest ct plan fuel fuel' cs R1 R2 L (k & H1 & H2 & U) -> HFu1 HFu2. set (raw := h ++ rest) in *.
  apply (stream_first (b64_source chan_read fuel') (b64_at chan_at fuel') 3 fuel ks1 ks2 h rest _ 0%nat k cs (b64_feeds chan_read chan_at fuel' chan_feeds)); [lia | | | exact L | |].
  - destruct (decoded_encode raw) as [E1 E2]. split; [reflexivity|]. split; [reflexivity|].
    pose proof (br_new_at chan_at fuel' (MkChan plan (Base64WSEncode raw)) (Base64WSEncode raw) (length plan)) as B. rewrite E1, E2 in B.
    apply B; [split; reflexivity | apply encode_good | exact HFu1].
  - fold raw. pose proof (len_encode raw) as LE. pose proof (len_nonneg raw) as L0.
    assert (len raw <= len (Base64WSEncode raw)) by (rewrite LE; apply Z.div_le_lower_bound; lia). unfold len in *. lia.
  - apply has_parse; auto; apply reached_inv; assumption.
  - apply has_parse; auto; apply reached_inv; assumption.
Qed.
Print Assumptions C92_streams_base64.

(** With the same keys the reads of any stream at all give the same; here the stream is any object with a
    read method, and may fail at any time. *)
Theorem C92_any_stream : forall St (rd : source St) ks1 ks2 fuel s cs, reached ks1 -> reached ks2 ->
  (forall h, len h = 5 -> same_under h ks1 ks2) ->
  dr_reads rd fuel (CreateDecryptingStreamReader ks1) s cs = dr_reads rd fuel (CreateDecryptingStreamReader ks2) s cs.
Proof.
  intros St rd ks1 ks2 fuel s cs R1 R2 S. change (CreateDecryptingStreamReader ks1) with (with_ks ks1 (CreateDecryptingStreamReader ks2)).
  assert (E : dr_ks (CreateDecryptingStreamReader ks2) = ks2) by reflexivity. revert E. generalize (CreateDecryptingStreamReader ks2). revert s.
  induction cs as [|c cs IH]; intros s d E; [reflexivity|]. cbn [dr_reads]. rewrite read_swap.
  - destruct (dr_read rd fuel d s c) as [x [d' s']] eqn:ER. apply read_keeps in ER as [EK _]. unfold swap. cbn [fst snd]. f_equal. apply IH. congruence.
  - intros _ b av s' _ L. rewrite E. change HEADER_SIZE with 5 in *. apply ParseHeader_same; [apply reached_inv, R1 | apply reached_inv, R2 | apply len_first_five, L | apply S, len_first_five, L].
Qed.
Print Assumptions C92_any_stream.

(** Encrypting streams and new sessions use the primary key only. *)
Theorem C92_new : forall ks1 ks2 n1 n2 k, reached ks1 -> reached ks2 -> ring_of ks1 n1 = Some (PRIMARY, k) -> ring_of ks2 n2 = Some (PRIMARY, k) ->
  (forall r b64, CreateEncryptingStreamWriter ks1 r b64 = CreateEncryptingStreamWriter ks2 r b64) /\
  (forall r e, SessionEncrypter r e ks1 = SessionEncrypter r e ks2) /\
  (forall r e, SignedSessionEncrypter r e ks1 = SignedSessionEncrypter r e ks2) /\
  (forall e e' s p, SignedSession_Encrypt e e' s ks1 p = SignedSession_Encrypt e e' s ks2 p).
Proof.
  intros ks1 ks2 n1 n2 k R1 R2 H1 H2.
  assert (P1 : primary_key ks1 = Ok k) by (apply primary_key_spec; [apply reached_inv, R1 | exists n1; exact H1]).
  assert (P2 : primary_key ks2 = Ok k) by (apply primary_key_spec; [apply reached_inv, R2 | exists n2; exact H2]).
  assert (EE : forall e p d, Encrypt e ks1 p d = Encrypt e ks2 p d) by (intros; unfold Encrypt; rewrite P1, P2; reflexivity).
  assert (EA : forall e p n d, AttachedSign e ks1 p n d = AttachedSign e ks2 p n d) by (intros; unfold AttachedSign, InternalSign; rewrite P1, P2; reflexivity).
  split; [intros; unfold CreateEncryptingStreamWriter; rewrite P1, P2; reflexivity|].
  split; [intros; unfold SessionEncrypter; destruct (Session_New r) as [x|x]; cbn [bind]; [|reflexivity]; destruct (packed_key x); cbn [bind]; [rewrite EE|]; reflexivity|].
  split; [intros; unfold SignedSessionEncrypter; destruct (Session_New r) as [x|x]; cbn [bind]; [|reflexivity]; destruct (session_json x); cbn [bind]; [rewrite EE|]; reflexivity|].
  intros. unfold SignedSession_Encrypt. destruct (session_crypter s) as [c|x]; cbn [bind]; [|reflexivity]. destruct (Encrypt e c p None); cbn [bind]; [apply EA | reflexivity].
Qed.
Print Assumptions C92_new.

(** Opening a session from its material uses the key that the material names, and a signed message in it the
    key that the message names. *)
Theorem C92_sessions : forall ks1 ks2 material, reached ks1 -> reached ks2 ->
  (forall h rest, Base64WSDecode material = Ok (h ++ rest) -> len h = 5 -> same_under h ks1 ks2) ->
  (forall fuel, SessionDecrypter fuel ks1 material = SessionDecrypter fuel ks2 material) /\
  SignedSessionDecrypter ks1 material = SignedSessionDecrypter ks2 material /\
  (forall s, SignedSession_Decrypt s ks1 material = SignedSession_Decrypt s ks2 material).
Proof.
  intros ks1 ks2 mt R1 R2 S.
  assert (D : Decrypt ks1 mt b64_decoder = Decrypt ks2 mt b64_decoder).
  { pose proof (C92_reading ks1 ks2 (CDecrypt mt b64_decoder) _ R1 R2 eq_refl S) as H. cbn [gives] in H. destruct (Decrypt ks1 mt b64_decoder), (Decrypt ks2 mt b64_decoder); cbn in H; congruence. }
  split; [intros; unfold SessionDecrypter; rewrite D; reflexivity|]. split; [unfold SignedSessionDecrypter; rewrite D; reflexivity|]. intros s.
  assert (A : AttachedVerify ks1 mt (se_nonce s) b64_decoder = AttachedVerify ks2 mt (se_nonce s) b64_decoder).
  { pose proof (C92_reading ks1 ks2 (CAttachedVerify mt (se_nonce s) b64_decoder) _ R1 R2 eq_refl S) as H. cbn [gives] in H. destruct (AttachedVerify ks1 mt (se_nonce s) b64_decoder), (AttachedVerify ks2 mt (se_nonce s) b64_decoder); cbn in H; congruence. }
  unfold SignedSession_Decrypt. rewrite A. reflexivity.
Qed.
Print Assumptions C92_sessions.

(** testdata/aes, and a set that has its second key alone, as version 9. *)
Definition alone_aes : reader :=
  MkReader (Ok (bs "{""encrypted"": false, ""versions"": [{""status"": ""PRIMARY"", ""versionNumber"": 9, ""exportable"": false}], ""type"": ""AES"", ""name"": ""Other"", ""purpose"": ""DECRYPT_AND_ENCRYPT""}"))
    (fun n => if n =? 9 then Ok aes_2 else Raise IOError) false.

Example C92_streams_case : exists ks2 h k, reached aes_set /\ reached ks2 /\ keys_of ks2 <> keys_of aes_set /\ len h = 5 /\ share h aes_set ks2 /\ same_under h aes_set ks2 /\
  ring_of aes_set 2 = Some (PRIMARY, k) /\ ring_of ks2 9 = Some (PRIMARY, k) /\ key_header k = Ok h.
Proof.
  destruct (open_keyset Crypter alone_aes) as [ks2|] eqn:O2; [|vm_compute in O2; discriminate O2].
  assert (R2 : reached ks2) by (exists Crypter, alone_aes, ks2, []; auto).
  destruct (ring_of aes_set 2) as [[st k]|] eqn:EK; [|discriminate EK]. assert (EK' := EK). cbv in EK'. apply Some_inj, pair_inj in EK' as [<- EK'].
  assert (K2 : keys_of ks2 = [k] /\ ring_of ks2 9 = Some (PRIMARY, k)) by (vm_compute in O2; apply Ok_inj in O2 as <-; rewrite <- EK'; split; reflexivity). destruct K2 as [K2 RK].
  destruct (key_header k) as [h|] eqn:EH; [|rewrite <- EK' in EH; vm_compute in EH; discriminate EH].
  assert (K1 : exists k1, keys_of aes_set = [k1; k] /\ key_header k1 <> Ok h).
  { rewrite <- EK' in *. vm_compute in EH. apply Ok_inj in EH as <-. eexists. split; [reflexivity|]. vm_compute. discriminate. }
  destruct K1 as (k1 & K1 & N1).
  assert (S1 : forall k', has_under aes_set h k' -> k' = k) by (intros k' [HI HH]; rewrite K1 in HI; destruct HI as [<-|[<-|[]]]; [contradiction | reflexivity]).
  assert (S2 : forall k', has_under ks2 h k' -> k' = k) by (intros k' [HI HH]; rewrite K2 in HI; destruct HI as [<-|[]]; reflexivity).
  assert (A1 : has_under aes_set h k) by (split; [rewrite K1; right; left; reflexivity | exact EH]).
  assert (A2 : has_under ks2 h k) by (split; [rewrite K2; left; reflexivity | exact EH]).
  exists ks2, h, k. split; [exists Crypter, (file_reader test_disk (bs "/aes")), aes_set, []; split; [exact aes_set_opens | reflexivity]|].
  split; [exact R2|]. split; [rewrite K1, K2; discriminate|]. split; [rewrite <- EK' in EH; vm_compute in EH; apply Ok_inj in EH as <-; reflexivity|].
  split; [exists k; split; [exact A1|]; split; [exact A2|]; intros k' [H|H]; auto|].
  split; [split; [intros k'; split; intros H; [rewrite (S1 k' H); exact A2 | rewrite (S2 k' H); exact A1] | intros a b Ha Hb; rewrite (S1 a Ha), (S1 b Hb); reflexivity]|].
  split; [reflexivity|]. split; [exact RK | exact EH].
Qed.
