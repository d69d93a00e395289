(** * Props_Resume: going on after a header was refused, on any channel (C53). *)
From Coq Require Import Strings.String.
From Coq Require Import List ZArith NArith Bool Lia ZifyBool ZifyNat ZifyN.
From Coq.Init Require Import Byte.
From Verif Require Import PyBase PyFacts Base64 Aes AesFacts Base64Facts Sha1 Util UtilFacts KeyInfo SymKeys SymFacts Keys KeyData Keyczar Streams StreamFacts.
From Verif Require Import Props_Util Props_Disk Props_Sign Props_Stream Props_Forged.
Import ListNotations.
Local Open Scope Z_scope.

(** A reader without a key that has already taken [x] from the channel. *)
Definition holding (ks : keyset) (x : str) : dsr := set_enc (CreateDecryptingStreamReader ks) x.

Lemma header_bytes ks x s t m fuel hdr rest : len x < 5 -> chan_at s t m -> x ++ t = hdr ++ rest -> len hdr = 5 -> (m + length t < fuel)%nat ->
  exists y s' t' m', ReadBytes chan_read fuel s (HEADER_SIZE - len (dr_enc (holding ks x))) true [] = (Ok (y, true), s') /\ chan_at s' t' m' /\ (m' + length t' <= m + length t)%nat /\
    exists x', x ++ y = hdr ++ x' /\ len x' < 5 /\ x' ++ t' = rest.
Proof.
  intros LX HP ET LH HFu. cbn [holding set_enc dr_enc]. change HEADER_SIZE with 5.
  destruct (ReadBytes_feeds chan_read chan_at 1 chan_feeds ltac:(lia) fuel s t m (5 - len x) true [] HP) as (y & av & s1 & t1 & m1 & E & E1 & HP1 & HM & R1 & R2 & R3); [rewrite len_nil; lia | exact HFu|].
  cbn [app] in *. subst t. pose proof (f_equal len ET) as LT. rewrite !len_app in LT. pose proof (len_nonneg rest). pose proof (len_nonneg x).
  assert (av = true) as -> by (destruct av; [reflexivity|]; destruct (R1 eq_refl) as [-> L]; rewrite len_nil in LT; lia).
  destruct (R2 eq_refl) as [LY|[C _]]; [|discriminate].
  destruct (split_at (x ++ y) 5) as (h & x' & EX & L5); [rewrite len_app; lia|]. rewrite app_assoc, EX, <- app_assoc in ET. destruct (app_inv_len _ _ _ _ ET) as [-> ER]; [lia|].
  exists y, s1, t1, m1. split; [exact E|]. split; [exact HP1|]. split; [rewrite app_length; lia|]. exists x'. split; [exact EX|]. split; [|exact ER].
  apply (f_equal len) in EX. rewrite !len_app in EX. lia.
Qed.

Lemma refused_header ks x s t m fuel hdr rest e c : len x < 5 -> chan_at s t m -> x ++ t = hdr ++ rest -> len hdr = 5 -> (m + length t < fuel)%nat -> ParseHeader ks hdr = Raise e ->
  exists x' s' t' m', dr_read chan_read fuel (holding ks x) s c = (Raise e, (holding ks x', s')) /\ len x' < 5 /\ chan_at s' t' m' /\ x' ++ t' = rest /\ (m' + length t' < fuel)%nat.
Proof.
  intros LX HP ET LH HFu EP. destruct (header_bytes ks x s t m fuel hdr rest LX HP ET LH HFu) as (y & s' & t' & m' & E & HP' & HM & x' & EX & L' & ER).
  exists x', s', t', m'. split; [|repeat split; try apply HP'; try assumption; lia].
  unfold dr_read. cbn [holding set_enc CreateDecryptingStreamReader dr_closed dr_key]. fold (holding ks x). unfold dr_CreateKey. rewrite E.
  cbn [holding set_enc dr_enc CreateDecryptingStreamReader dr_ks dr_key dr_hmac dr_cipher dr_dec dr_closed app]. rewrite EX. change HEADER_SIZE with 5.
  replace (5 <=? len (hdr ++ x')) with true by (rewrite len_app; pose proof (len_nonneg x'); lia). rewrite slice_to_app, slice_from_app by lia. cbn [dr_ks set_enc]. rewrite EP. reflexivity.
Qed.

(** The first call for a stream of which [x] is already there. *)
Lemma start_holding fuel ks hdr iv X a kb hb x s t m : len x < 5 -> chan_at s t m -> x ++ t = hdr ++ iv ++ X -> (m + length t < fuel)%nat -> addressed ks a kb hb hdr iv X ->
  exists d1 s1, mid chan_at fuel kb hb hdr iv X d1 s1 [] /\ forall chars, dr_read chan_read fuel (holding ks x) s chars = dr_read chan_read fuel d1 s1 chars.
Proof.
  intros LX HP ET HFu (LH & LI & LXX & EP & [Ek Eh] & HS).
  destruct (header_bytes ks x s t m fuel hdr (iv ++ X) LX HP ET LH HFu) as (y0 & s1 & t1 & m1 & E & HP1 & HM & x2 & EX & L2' & ER).
  set (d1 := MkDsr ks (Some (KAes a)) (Some (MkHs hb hdr)) None x2 [] false).
  assert (S1 : dr_CreateKey chan_read fuel (holding ks x) s = (Ok true, (d1, s1))).
  { unfold dr_CreateKey. rewrite E. cbn [holding set_enc dr_enc CreateDecryptingStreamReader dr_ks app]. rewrite EX. change HEADER_SIZE with 5.
    replace (5 <=? len (hdr ++ x2)) with true by (rewrite len_app; pose proof (len_nonneg x2); lia). rewrite slice_to_app, slice_from_app by lia.
    cbn [dr_ks set_enc CreateDecryptingStreamReader]. rewrite EP. cbn [key_hmac_key bind]. unfold CreateStreamable. rewrite Eh. reflexivity. }
  pose proof (f_equal len ER) as LT. rewrite !len_app in LT.
  destruct (ReadBytes_feeds chan_read chan_at 1 chan_feeds ltac:(lia) fuel s1 t1 m1 (16 - len x2) true [] HP1) as (y & av & s2 & t2 & m2 & E2 & -> & HP2 & HM2 & Q1 & Q2 & _); [rewrite len_nil; lia | lia|].
  cbn [app] in *. rewrite len_app in LT.
  assert (av = true) as -> by (destruct av; [reflexivity|]; destruct (Q1 eq_refl) as [-> L]; rewrite len_nil in LT; lia).
  destruct (Q2 eq_refl) as [LY|[C _]]; [|discriminate].
  destruct (split_at (x2 ++ y) 16) as (y1 & y2 & EY & L2); [rewrite len_app; lia|]. rewrite app_assoc, EY, <- app_assoc in ER.
  destruct (app_inv_len _ _ _ _ ER) as [-> EX2]; [lia|]. subst X.
  set (d2 := MkDsr ks (Some (KAes a)) (Some (MkHs hb (hdr ++ iv))) (Some (MkCipher (key_schedule kb) iv)) y2 [] false).
  assert (S2 : dr_CreateCipher chan_read fuel (KAes a) d1 s1 = (Ok true, (d2, s2))).
  { unfold dr_CreateCipher. cbn [d1 dr_enc]. change block_size with 16. rewrite E2. cbn [set_enc dr_enc dr_hmac]. rewrite EY.
    replace (16 <=? len (iv ++ y2)) with true by (rewrite len_app; pose proof (len_nonneg y2); lia).
    rewrite slice_to_app, slice_from_app by lia. rewrite Ek. cbn [bind]. rewrite (AES_new_iff kb iv HS LI). reflexivity. }
  exists d2, s2. split.
  - constructor; [reflexivity | exists a; reflexivity|].
    exists [], (MkCipher (key_schedule kb) iv), t2, m2. cbn [d2 dr_hmac dr_cipher dr_enc dr_dec app].
    split; [rewrite app_nil_r; reflexivity|]. split; [reflexivity|]. split; [apply (AES_new_ok kb iv), AES_new_iff; assumption|].
    split; [reflexivity|]. split; [exact HP2|].
    split; [apply (f_equal (@length byte)) in EY, EX; pose proof (f_equal (@length byte) ET); rewrite !app_length in *; unfold len in *; lia|].
    split; [reflexivity|]. split; [apply cipher_decrypt_nil | exact LXX].
  - intros chars. rewrite (dr_read_body chan_read fuel d2 s2 chars a (MkHs hb (hdr ++ iv)) (MkCipher (key_schedule kb) iv)) by reflexivity.
    unfold dr_read. cbn [holding set_enc CreateDecryptingStreamReader dr_closed dr_key]. fold (holding ks x). rewrite S1. cbn [d1 dr_key dr_cipher]. fold d1. rewrite S2. reflexivity.
Qed.

Lemma mid_faithful fuel ks a kb hb hdr iv X p d s cs : addressed ks a kb hb hdr iv X -> authentic hb hdr iv X -> carries kb iv X p ->
  mid chan_at fuel kb hb hdr iv X d s [] -> faithful p cs (dr_reads chan_read fuel d s cs).
Proof.
  intros HA HAu HCa HMid. pose proof chan_feeds as HF. assert (HK : 0 <= 1 <= 3) by lia.
  assert (HR : ready chan_at fuel ks kb hb hdr iv X d s []) by (right; left; exact HMid).
  assert (HS : aes_size_ok kb) by apply HA. assert (HI : len iv = 16) by apply HA.
  split; [apply (reads_bounded chan_read chan_at 1 fuel ks a kb hb hdr iv X HF HK HA HAu cs d s [] HR)|].
  destruct (dr_reads_ready chan_read chan_at 1 fuel ks a kb hb hdr iv X HF HK HA cs d s [] HR) as [H1 H2]. specialize (H2 HAu).
  split. { destruct (H1 H2) as (d' & s' & HR'). apply (ready_prefix chan_at fuel ks kb hb hdr iv X d' s' _ p HS HI HR' HCa). }
  split.
  - intros cs1 c cs2 ys zs -> L HC E. rewrite E in H2. apply Forall_app in H2 as [H2 _].
    replace (cs1 ++ c :: cs2) with ((cs1 ++ [c]) ++ cs2) in E by (rewrite <- app_assoc; reflexivity). rewrite dr_reads_app in E.
    replace (ys ++ Ok (Some []) :: zs) with ((ys ++ [Ok (Some [])]) ++ zs) in E by (rewrite <- app_assoc; reflexivity).
    assert (E2 : dr_reads chan_read fuel d s (cs1 ++ [c]) = ys ++ [Ok (Some [])]).
    { destruct (app_inv_len _ _ _ _ E) as [E2 _]; [|exact E2]. unfold len. rewrite length_dr_reads, !app_length. cbn [length]. lia. }
    destruct (clean_end chan_read chan_at 1 fuel ks a kb hb hdr iv X cs1 c d s [] ys HF HK HA HR HC E2 H2) as (d' & s' & HE & HD).
    pose proof (ended_plain chan_at fuel kb hb hdr iv X d' s' _ p HS HI HE HCa) as EP. rewrite HD, app_nil_r in EP. symmetry. exact EP.
  - intros HL. destruct (enough_reads chan_read chan_at 1 fuel ks a kb hb hdr iv X p HF HK HA HAu HCa cs d s [] HR) as [E|E]; [exact E|].
    destruct (H1 H2) as (d' & s' & HR'). destruct (ready_prefix chan_at fuel ks kb hb hdr iv X d' s' _ p HS HI HR' HCa) as (rest & EP). cbn [app] in EP.
    exfalso. rewrite EP, app_length in HL. lia.
Qed.

(** The five-byte pieces [hdrs] are refused by the set with the exceptions [es]. *)
Definition refused (ks : keyset) (hdr : str) (e : exn) : Prop := len hdr = 5 /\ ParseHeader ks hdr = Raise e.

Lemma resumes ks raw fuel cs : (exists a kb hb hdr iv X p, raw = hdr ++ iv ++ X /\ addressed ks a kb hb hdr iv X /\ authentic hb hdr iv X /\ carries kb iv X p) ->
  forall hdrs es, Forall2 (refused ks) hdrs es -> forall x s t m cs0, length cs0 = length hdrs -> len x < 5 -> chan_at s t m -> x ++ t = concat hdrs ++ raw -> (m + length t < fuel)%nat ->
  exists xs, dr_reads chan_read fuel (holding ks x) s (cs0 ++ cs) = map Raise es ++ xs /\
    forall a kb hb hdr iv X p, raw = hdr ++ iv ++ X -> addressed ks a kb hb hdr iv X -> authentic hb hdr iv X -> carries kb iv X p -> faithful p cs xs.
Proof.
  intros HR hdrs es H. induction H as [|h e hdrs es [LH EP] H IH]; intros x s t m cs0 LC LX HP ET HFu.
  - destruct cs0; [|discriminate]. cbn [concat app map] in *. eexists. split; [reflexivity|]. intros a kb hb hdr iv X p -> HA HAu HCa.
    destruct (start_holding fuel ks hdr iv X a kb hb x s t m LX HP ET HFu HA) as (d1 & s1 & HM & EQ).
    replace (dr_reads chan_read fuel (holding ks x) s cs) with (dr_reads chan_read fuel d1 s1 cs) by (destruct cs; [reflexivity|]; cbn [dr_reads]; rewrite EQ; reflexivity).
    exact (mid_faithful fuel ks a kb hb hdr iv X p d1 s1 cs HA HAu HCa HM).
  - destruct cs0 as [|c cs0]; [discriminate|]. cbn [concat] in ET. rewrite <- app_assoc in ET.
    destruct (refused_header ks x s t m fuel h _ e c LX HP ET LH HFu EP) as (x' & s' & t' & m' & E & L' & HP' & ET' & HFu').
    cbn [app dr_reads map]. rewrite E. cbn [fst snd]. destruct (IH x' s' t' m' cs0 ltac:(cbn [length] in LC; lia) L' HP' ET' HFu') as (xs & E2 & HX). rewrite E2. exists xs. split; [reflexivity | exact HX].
Qed.

(** A header that is refused is gone, and the next read takes what follows for the beginning of a stream, whatever pieces the channel
    delivers.  So a whole stream behind any number of five-byte pieces that are refused is read to its clean end, like
    the stream alone, by a caller who goes on after the exceptions, one for each piece. *)
Theorem C53_stream_after_refused_headers : forall e ks k kb hb p raw ks' n' hdrs es plan fuel cs0 cs,
  aes_primary ks k kb hb -> holds ks' n' (KAes k) -> Encrypt e ks p None = Ok raw ->
  Forall2 (refused ks') hdrs es -> length cs0 = length hdrs -> (length plan + length (concat hdrs ++ raw) < fuel)%nat ->
  exists xs, dr_reads chan_read fuel (CreateDecryptingStreamReader ks') (MkChan plan (concat hdrs ++ raw)) (cs0 ++ cs) = map Raise es ++ xs /\ faithful p cs xs.
Proof.
  intros e ks k kb hb p raw ks' n' hdrs es plan fuel cs0 cs HA HV EE HR LC HFu.
  destruct (encrypted_stream e ks k kb hb p raw ks' n' HA HV EE) as (hdr & X & ER & HAd & HAu & HCa).
  destruct (resumes ks' raw fuel cs) with (hdrs := hdrs) (es := es) (x := @nil byte) (s := MkChan plan (concat hdrs ++ raw)) (t := concat hdrs ++ raw) (m := length plan) (cs0 := cs0) as (xs & E & HX); auto.
  - exists k, kb, hb, hdr, (RandBytes (e_tape e) 16), X, p. auto.
  - reflexivity.
  - split; reflexivity.
  - exists xs. split; [exact E|]. exact (HX k kb hb hdr _ X p ER HAd HAu HCa).
Qed.
Print Assumptions C53_stream_after_refused_headers.

(** testdata/aes has no key with the identifier 0000, and none with 01010101. *)
Example C53_refused_case : exists es, Forall2 (refused aes_set) [rep 5 x00; x00 :: rep 4 x01; rep 5 x07] es /\ length es = 3%nat.
Proof. eexists. split; [repeat (apply Forall2_cons; [split; [reflexivity | vm_compute; reflexivity]|]); apply Forall2_nil | reflexivity]. Qed.
