(** * Props_Adaptor: theorems for C85 (cipher objects behave alike with either library). *)
From Coq Require Import Strings.String.
From Coq Require Import List ZArith NArith Bool Lia ZifyBool ZifyNat ZifyN.
From Coq.Init Require Import Byte.
From Verif Require Import PyBase PyFacts Base64 Util UtilFacts Aes AesFacts AesSpec AesSpecFacts SymKeys SymFacts Adaptor Props_Sym Props_Prim.
Import ListNotations.
Local Open Scope Z_scope.

(** ** Specification *)

(** Complete blocks. *)
Definition blocks (d : str) : Prop := len d mod 16 = 0.

(** [out] is [d] encrypted, or decrypted, by AES in CBC mode after [iv]; FIPS 197 and [chained] define it. *)
Definition cbc (encrypting : bool) (key iv d out : str) : Prop :=
  exists ps cs, chained (fips197 key) iv ps cs /\ concat ps = (if encrypting then d else out) /\ concat cs = (if encrypting then out else d).

(** The calls in one direction. *)
Definition call_of (encrypting : bool) : str -> ccall := if encrypting then CEnc else CDec.

(** ** Proofs *)
Definition crypt (b : bool) (c : cipher) (d : str) : res (str * cipher) := if b then cipher_encrypt c d else cipher_decrypt c d.
Definition update (b : bool) (e : evp) (d : str) : res (str * evp) := if b then evp_update e d else evp_update_dec e d.

Lemma crypt_app b c x y : blocks x -> blocks y -> crypt b c (x ++ y) = let* (u, c1) := crypt b c x in let* (v, c2) := crypt b c1 y in Ok (u ++ v, c2).
Proof. destruct b; [apply cipher_encrypt_app | apply cipher_decrypt_app]. Qed.
Lemma crypt_nil b c : crypt b c [] = Ok ([], c).
Proof. destruct b; [apply cipher_encrypt_nil | apply cipher_decrypt_nil]. Qed.
Lemma crypt_ok b c d : cipher_ok c -> blocks d -> exists out c', crypt b c d = Ok (out, c') /\ cipher_ok c' /\ len out = len d.
Proof.
  intros HC HD. destruct b; [|apply cipher_decrypt_ok; assumption]. destruct (cipher_encrypt_ok c d HC HD) as (o & c' & E & H & L & _). exists o, c'. split; [exact E|]. split; assumption.
Qed.
Lemma crypt_bad b c d : ~ blocks d -> crypt b c d = Raise ValueError.
Proof. destruct b; [apply cipher_encrypt_bad | apply cipher_decrypt_bad]. Qed.

Lemma crypt_cbc b key iv d out c' : aes_size_ok key -> len iv = 16 -> crypt b (MkCipher (key_schedule key) iv) d = Ok (out, c') -> cbc b key iv d out.
Proof.
  intros HS HI HC. assert (HB : blocks d) by (destruct (Z.eq_dec (len d mod 16) 0) as [E|E]; [exact E | rewrite crypt_bad in HC by exact E; discriminate]).
  unfold cbc. destruct b; cbn [crypt] in HC; [unfold cipher_encrypt in HC | unfold cipher_decrypt in HC]; cbn [c_keys c_iv] in HC; rewrite HB in HC; cbn [Z.eqb] in HC.
  - destruct (enc_chained key HS (Z.to_nat (len d / 16)) iv d) as (ps & cs & E1 & E2 & C); [unfold len in HI; lia | unfold blocks, len in *; pose proof (Z.div_mod (Z.of_nat (List.length d)) 16 ltac:(lia)); lia|].
    destruct (cbc_enc _ _ _ _) as [o i]. apply Ok_inj, pair_inj in HC as [<- _]. exists ps, cs. split; [exact C|]. split; assumption.
  - destruct (dec_chained key HS (Z.to_nat (len d / 16)) iv d) as (ps & cs & E1 & E2 & C); [unfold len in HI; lia | unfold blocks, len in *; pose proof (Z.div_mod (Z.of_nat (List.length d)) 16 ltac:(lia)); lia|].
    destruct (cbc_dec _ _ _ _) as [o i]. apply Ok_inj, pair_inj in HC as [<- _]. exists ps, cs. split; [exact C|]. split; assumption.
Qed.

(** PyCrypto's objects. *)
Lemma py_step b c d : ad_step (AESAdaptor c) (call_of b d) = match crypt b c d with Ok (o, c') => (AESAdaptor c', Ok o) | Raise e => (AESAdaptor c, Raise e) end.
Proof. destruct b; unfold ad_step; cbn [call_of crypt adaptor_encrypt adaptor_decrypt]; [destruct (cipher_encrypt c d) as [[o c']|e] | destruct (cipher_decrypt c d) as [[o c']|e]]; reflexivity. Qed.
(** M2Crypto's objects. *)
Lemma update_eq b e d : update b e d = let* (out, c) := crypt b (e_cipher e) (slice_to (e_buf e ++ d) (16 * (len (e_buf e ++ d) / 16))) in Ok (out, MkEvp c (slice_from (e_buf e ++ d) (16 * (len (e_buf e ++ d) / 16)))).
Proof. destruct b; reflexivity. Qed.
Definition slots (b : bool) (e : evp) (other : option evp) : option evp * option evp := if b then (Some e, other) else (other, Some e).
Definition holding (b : bool) (key iv : str) (e : evp) (other : option evp) : adaptor := EVPAdaptor key iv (fst (slots b e other)) (snd (slots b e other)).
Lemma m2_step b key iv e (other : option evp) d : ad_step (holding b key iv e other) (call_of b d) = match update b e d with Ok (o, e') => (holding b key iv e' other, Ok o) | Raise x => (holding b key iv e other, Raise x) end.
Proof. destruct b; unfold ad_step, holding; cbn [call_of update slots fst snd adaptor_encrypt adaptor_decrypt evp_Cipher bind]; [destruct (evp_update e d) as [[o e']|x] | destruct (evp_update_dec e d) as [[o e']|x]]; reflexivity. Qed.
Lemma m2_first (b : bool) key iv (other : option evp) d : aes_size_ok key -> len iv = 16 ->
  ad_step (EVPAdaptor key iv (if b then None else other) (if b then other else None)) (call_of b d) = ad_step (holding b key iv (MkEvp (MkCipher (key_schedule key) iv) []) other) (call_of b d).
Proof.
  intros HS HI. pose proof (AES_new_iff key iv HS HI) as EN. unfold ad_step, holding. destruct b; cbn [call_of slots fst snd adaptor_encrypt adaptor_decrypt evp_Cipher]; unfold EVP_new; rewrite EN; cbn [bind].
  - destruct (evp_update _ d) as [[o e']|x] eqn:E; [reflexivity|]. exfalso. pose proof (update_eq true (MkEvp (MkCipher (key_schedule key) iv) []) d) as U. cbn [update e_buf e_cipher app] in U. rewrite E in U.
    destruct (crypt_ok true (MkCipher (key_schedule key) iv) (slice_to d (16 * (len d / 16)))) as (u & c' & EC & _); [exact (AES_new_ok _ _ _ EN)| |rewrite EC in U; discriminate U].
    unfold blocks. pose proof (len_nonneg d). rewrite len_slice_to by lia. rewrite Z.mul_comm. apply Z_mod_mult.
  - destruct (evp_update_dec _ d) as [[o e']|x] eqn:E; [reflexivity|]. exfalso. pose proof (update_eq false (MkEvp (MkCipher (key_schedule key) iv) []) d) as U. cbn [update e_buf e_cipher app] in U. rewrite E in U.
    destruct (crypt_ok false (MkCipher (key_schedule key) iv) (slice_to d (16 * (len d / 16)))) as (u & c' & EC & _); [exact (AES_new_ok _ _ _ EN)| |rewrite EC in U; discriminate U].
    unfold blocks. pose proof (len_nonneg d). rewrite len_slice_to by lia. rewrite Z.mul_comm. apply Z_mod_mult.
Qed.
Lemma m2_run b key iv (other : option evp) (pieces : list str) : forall e rest, cipher_ok (e_cipher e) -> len (e_buf e) < 16 ->
  exists outs c' full left, outcomes (holding b key iv e other) (map (call_of b) pieces ++ rest) = map Ok outs ++ outcomes (holding b key iv (MkEvp c' left) other) rest /\
    e_buf e ++ concat pieces = full ++ left /\ blocks full /\ len left < 16 /\ crypt b (e_cipher e) full = Ok (concat outs, c') /\ List.length outs = List.length pieces.
Proof.
  induction pieces as [|d pieces IH]; intros e rest HC HB.
  - exists [], (e_cipher e), [], (e_buf e). split; [destruct e; reflexivity|]. cbn [concat]. split; [apply app_nil_r|]. split; [reflexivity|]. split; [exact HB|]. split; [apply crypt_nil | reflexivity].
  - set (buf := e_buf e ++ d). pose proof (len_nonneg buf) as NB. destruct (split_at buf (16 * (len buf / 16))) as (f1 & l1 & EB & LF); [lia|].
    assert (HF1 : blocks f1) by (unfold blocks; rewrite LF, Z.mul_comm; apply Z_mod_mult). assert (HL1 : len l1 < 16) by (rewrite EB, len_app in NB; assert (len buf = len f1 + len l1) by (rewrite EB, len_app; reflexivity); lia).
    destruct (crypt_ok b (e_cipher e) f1 HC HF1) as (o & c1 & E1 & HC1 & _).
    assert (U : update b e d = Ok (o, MkEvp c1 l1)).
    { rewrite update_eq. fold buf. rewrite <- LF, EB. rewrite slice_to_app, slice_from_app by reflexivity. rewrite E1. reflexivity. }
    destruct (IH (MkEvp c1 l1) rest HC1 HL1) as (outs & c' & full & left & EO & EF & HFu & HLe & EC & EL). cbn [e_buf e_cipher] in *.
    exists (o :: outs), c', (f1 ++ full), left. split; [|split; [|split; [|split; [|split]]]].
    + cbn [map app outcomes]. rewrite m2_step, U. cbn iota. rewrite EO. reflexivity.
    + cbn [concat]. rewrite app_assoc. fold buf. rewrite EB, <- !app_assoc. f_equal. exact EF.
    + unfold blocks in *. rewrite len_app. lia.
    + exact HLe.
    + rewrite crypt_app by assumption. rewrite E1. cbn [bind]. rewrite EC. reflexivity.
    + cbn [List.length]. rewrite EL. reflexivity.
Qed.
Lemma m2_final b key iv e : adaptor_final (holding b key iv e None) = evp_final e.
Proof. destruct b; reflexivity. Qed.
Lemma created lib key iv a : CreateCipher lib key iv = Ok a -> lib = PyCrypto -> exists c, a = AESAdaptor c /\ AES_new key iv = Ok c.
Proof. intros H ->. cbn in H. apply bind_Ok in H as (c & E & H). apply Ok_inj in H as <-. exists c. split; [reflexivity | exact E]. Qed.

Lemma both_run b key iv (other : option evp) (pieces : list str) : forall c, cipher_ok c -> Forall blocks pieces ->
  exists outs c', (forall rest, outcomes (AESAdaptor c) (map (call_of b) pieces ++ rest) = map Ok outs ++ outcomes (AESAdaptor c') rest) /\
    (forall rest, outcomes (holding b key iv (MkEvp c []) other) (map (call_of b) pieces ++ rest) = map Ok outs ++ outcomes (holding b key iv (MkEvp c' []) other) rest) /\
    crypt b c (concat pieces) = Ok (concat outs, c') /\ map len outs = map len pieces /\ cipher_ok c'.
Proof.
  induction pieces as [|d pieces IH]; intros c HC HF.
  - exists [], c. split; [reflexivity|]. split; [reflexivity|]. split; [apply crypt_nil|]. split; [reflexivity | exact HC].
  - inversion HF as [|? ? Hd HF']; subst. destruct (crypt_ok b c d HC Hd) as (o & c1 & E1 & HC1 & L1). destruct (IH c1 HC1 HF') as (outs & c' & EO & EM & EC & EL & HC').
    exists (o :: outs), c'. split; [|split; [|split; [|split]]].
    + intros rest. cbn [map app outcomes]. rewrite py_step, E1. cbn iota. rewrite EO. reflexivity.
    + intros rest. assert (U : update b (MkEvp c []) d = Ok (o, MkEvp c1 [])).
      { rewrite update_eq. cbn [e_buf e_cipher app]. assert (16 * (len d / 16) = len d) as -> by (unfold blocks in Hd; pose proof (Z.div_mod (len d) 16 ltac:(lia)); lia). rewrite slice_to_all, slice_from_all by lia. rewrite E1. reflexivity. }
      cbn [map app outcomes]. rewrite m2_step, U. cbn iota. rewrite EM. reflexivity.
    + cbn [concat]. assert (HCon : blocks (concat pieces)). { clear - HF'. induction HF' as [|p ps Hp _ IHp]; [reflexivity|]. unfold blocks in *. cbn [concat]. rewrite len_app. lia. }
      rewrite crypt_app by assumption. rewrite E1. cbn [bind]. rewrite EC. reflexivity.
    + cbn [map]. rewrite L1, EL. reflexivity.
    + exact HC'.
Qed.
Lemma m2_start b key iv d cs : aes_size_ok key -> len iv = 16 ->
  outcomes (EVPAdaptor key iv None None) (call_of b d :: cs) = outcomes (holding b key iv (MkEvp (MkCipher (key_schedule key) iv) []) None) (call_of b d :: cs).
Proof. intros HS HI. cbn [outcomes]. rewrite <- (m2_first b key iv None d HS HI). destruct b; reflexivity. Qed.

(** Encrypting or decrypting complete blocks in any pieces: with either library the outputs are, joined, the
    CBC encryption or decryption of the pieces joined, each as long as its piece, and nothing is left. *)
Theorem C85_either_library : forall b key iv d pieces, aes_size_ok key -> len iv = 16 -> Forall blocks (d :: pieces) ->
  exists outs, (forall lib, exists a, CreateCipher lib key iv = Ok a /\ outcomes a (map (call_of b) (d :: pieces) ++ [CFinal]) = map Ok outs ++ [Ok []]) /\
    map len outs = map len (d :: pieces) /\ cbc b key iv (concat (d :: pieces)) (concat outs).
Proof.
  intros b key iv d pieces HS HI HF. pose proof (AES_new_iff key iv HS HI) as EN. pose proof (AES_new_ok _ _ _ EN) as HC.
  destruct (both_run b key iv None (d :: pieces) _ HC HF) as (outs & c' & EO & EM & EC & EL & _). exists outs. split; [|split; [exact EL | exact (crypt_cbc b key iv _ _ _ HS HI EC)]].
  intros [|].
  - exists (AESAdaptor (MkCipher (key_schedule key) iv)). split; [unfold CreateCipher; rewrite EN; reflexivity | exact (EO [CFinal])].
  - exists (EVPAdaptor key iv None None). split; [reflexivity|]. change (map (call_of b) (d :: pieces) ++ [CFinal]) with (call_of b d :: (map (call_of b) pieces ++ [CFinal])) in *. rewrite m2_start by assumption. specialize (EM [CFinal]). cbn [map app] in EM. rewrite EM. f_equal. cbn [outcomes]. unfold ad_step. rewrite m2_final. reflexivity.
Qed.
Print Assumptions C85_either_library.

(** With pieces of any length, an object of M2Crypto puts out the complete blocks so far and keeps the rest;
    [final] then tells whether there is one. *)
Theorem C85_m2crypto_pieces : forall b key iv d pieces, aes_size_ok key -> len iv = 16 ->
  exists a outs full left, CreateCipher M2Crypto key iv = Ok a /\
    outcomes a (map (call_of b) (d :: pieces) ++ [CFinal]) = map Ok outs ++ [if len left =? 0 then Ok [] else Raise ValueError] /\
    concat (d :: pieces) = full ++ left /\ blocks full /\ len left < 16 /\ cbc b key iv full (concat outs).
Proof.
  intros b key iv d pieces HS HI. pose proof (AES_new_iff key iv HS HI) as EN. pose proof (AES_new_ok _ _ _ EN) as HC. exists (EVPAdaptor key iv None None).
  destruct (m2_run b key iv None (d :: pieces) (MkEvp (MkCipher (key_schedule key) iv) []) [CFinal] HC ltac:(cbn; lia)) as (outs & c' & full & left & EO & EF & HF & HL & EC & _). cbn [e_buf e_cipher app] in EF, EC.
  exists outs, full, left. split; [reflexivity|]. split; [|split; [exact EF|]; split; [exact HF|]; split; [exact HL | exact (crypt_cbc b key iv _ _ _ HS HI EC)]].
  change (map (call_of b) (d :: pieces) ++ [CFinal]) with (call_of b d :: (map (call_of b) pieces ++ [CFinal])) in *. rewrite m2_start by assumption. rewrite EO. f_equal. cbn [outcomes]. unfold ad_step. rewrite m2_final. unfold evp_final. cbn [e_buf]. destruct left as [|x left]; [reflexivity|]. rewrite len_cons. pose proof (len_nonneg left). replace (1 + len left =? 0) with false by lia. reflexivity.
Qed.
Print Assumptions C85_m2crypto_pieces.

(** An object of PyCrypto refuses other pieces, and goes on as if they had not been given. *)
Theorem C85_pycrypto_pieces : forall b key iv before d after, aes_size_ok key -> len iv = 16 -> Forall blocks before -> len d mod 16 <> 0 ->
  exists a outs rest, CreateCipher PyCrypto key iv = Ok a /\
    outcomes a (map (call_of b) before ++ call_of b d :: after) = map Ok outs ++ Raise ValueError :: rest /\
    outcomes a (map (call_of b) before ++ after) = map Ok outs ++ rest.
Proof.
  intros b key iv before d after HS HI HF HD. pose proof (AES_new_iff key iv HS HI) as EN. pose proof (AES_new_ok _ _ _ EN) as HC.
  destruct (both_run b key iv None before _ HC HF) as (outs & c' & EO & _ & EC & _ & _).
  exists (AESAdaptor (MkCipher (key_schedule key) iv)), outs, (outcomes (AESAdaptor c') after). split; [unfold CreateCipher; rewrite EN; reflexivity|]. split; [|apply EO].
  rewrite EO. f_equal. cbn [outcomes]. rewrite py_step, crypt_bad by exact HD. reflexivity.
Qed.
Print Assumptions C85_pycrypto_pieces.

(** The last block. *)
Definition last16 (s : str) : str := skipn (List.length s - 16) s.

Lemma cbc_enc_last n ks : keys_ok ks -> forall iv data, List.length iv = 16%nat -> List.length data = (16 * S n)%nat -> snd (cbc_enc (S n) ks iv data) = last16 (fst (cbc_enc (S n) ks iv data)).
Proof.
  intros HK. induction n as [|n IH]; intros iv data HI HD.
  - cbn [cbc_enc fst snd]. rewrite app_nil_r. unfold last16. rewrite length_aes_encrypt by (try exact HK; rewrite length_xor; rewrite ?firstn_length; lia). reflexivity.
  - destruct (firstn_skipn_16 data (S n) HD) as [H1 H2]. remember (S n) as m. cbn [cbc_enc]. set (c := aes_encrypt_block ks (xor_str (firstn 16 data) iv)).
    assert (LC : List.length c = 16%nat) by (unfold c; apply length_aes_encrypt; [exact HK | rewrite length_xor; lia]).
    pose proof (cbc_enc_length m ks HK c (skipn 16 data) LC H2) as [L1 _]. specialize (IH c (skipn 16 data) LC H2). destruct (cbc_enc m ks c (skipn 16 data)) as [r v]. cbn [fst snd] in *. rewrite IH. unfold last16. rewrite app_length, LC, L1. subst m.
    rewrite skipn_app, LC. rewrite (skipn_all2 c) by lia. cbn [app]. f_equal.
Qed.
Lemma cbc_dec_iv n ks iv iv' data : keys_ok ks -> List.length iv = 16%nat -> List.length iv' = 16%nat -> List.length data = (16 * S n)%nat ->
  (fst (cbc_dec (S n) ks iv' data) = fst (cbc_dec (S n) ks iv data) <-> iv' = iv).
Proof.
  intros HK HI HI' HD. split; [|intros ->; reflexivity]. destruct (firstn_skipn_16 data n HD) as [H1 H2]. cbn [cbc_dec]. destruct (cbc_dec n ks (firstn 16 data) (skipn 16 data)) as [r v]. cbn [fst]. intros E.
  pose proof (length_aes_decrypt ks (firstn 16 data) HK H1) as LD. apply (f_equal (firstn 16)) in E. rewrite !firstn_app_exact in E by (rewrite length_xor; lia).
  assert (X : forall x a b : str, List.length x = List.length a -> List.length a = List.length b -> xor_str x a = xor_str x b -> a = b).
  { clear. induction x as [|u x IH]; intros [|a0 a] [|b0 b] L1 L2 H; cbn in L1, L2; try discriminate; [reflexivity|]. cbn [xor_str] in H. injection H as Hh Ht. f_equal; [|apply IH; [lia | lia | exact Ht]].
    rewrite <- (bxor_cancel a0 u), <- (bxor_cancel b0 u). f_equal. rewrite (bxor_comm a0), (bxor_comm b0). exact Hh. }
  apply (X (aes_decrypt_block ks (firstn 16 data))); [lia | lia | exact E].
Qed.

(** One object used in both directions: what M2Crypto's object encrypted it decrypts again, and then it has
    no active cipher to finish; PyCrypto's goes on from the last block it made, so that it does not give the
    text back unless that block is the IV. *)
Theorem C85_both_ways_refuted : forall key iv p, aes_size_ok key -> len iv = 16 -> blocks p -> p <> [] ->
  exists c q, cbc true key iv p c /\
    (forall a, CreateCipher M2Crypto key iv = Ok a -> outcomes a [CEnc p; CDec c; CFinal] = [Ok c; Ok p; Raise AssertionError]) /\
    (forall a, CreateCipher PyCrypto key iv = Ok a -> outcomes a [CEnc p; CDec c; CFinal] = [Ok c; Ok q; Ok []]) /\
    (q = p <-> last16 c = iv).
Proof.
  intros key iv p HS HI HB HN. pose proof (AES_new_iff key iv HS HI) as EN. pose proof (AES_new_ok _ _ _ EN) as HC. set (c0 := MkCipher (key_schedule key) iv) in *.
  destruct (cipher_encrypt_ok c0 p HC HB) as (c & c1 & EE & HC1 & LC & EK & ED). assert (HBc : blocks c) by (unfold blocks; rewrite LC; exact HB).
  destruct (cipher_decrypt_ok c1 c HC1 HBc) as (q & c2 & EQ & _ & _). exists c, q. split; [exact (crypt_cbc true key iv p c c1 HS HI EE)|]. split; [|split].
  - intros a HA. cbn in HA. apply Ok_inj in HA as <-. change (CEnc p) with (call_of true p). rewrite m2_start by assumption. fold c0.
    assert (U : forall b d o c', blocks d -> crypt b c0 d = Ok (o, c') -> update b (MkEvp c0 []) d = Ok (o, MkEvp c' [])).
    { intros b d o c' Hd E. rewrite update_eq. cbn [e_buf e_cipher app]. assert (16 * (len d / 16) = len d) as -> by (unfold blocks in Hd; pose proof (Z.div_mod (len d) 16 ltac:(lia)); lia). rewrite slice_to_all, slice_from_all by lia. rewrite E. reflexivity. }
    cbn [outcomes]. rewrite m2_step. rewrite (U true p c c1 HB EE). cbn iota. f_equal. change (holding true key iv (MkEvp c1 []) None) with (EVPAdaptor key iv (if false then None else Some (MkEvp c1 [])) (if false then Some (MkEvp c1 []) else None)). change (CDec c) with (call_of false c). rewrite m2_first by assumption. fold c0. rewrite m2_step, (U false c p c1 HBc ED). reflexivity.
  - intros a HA. unfold CreateCipher in HA. rewrite EN in HA. apply Ok_inj in HA as <-. change (CEnc p) with (call_of true p). change (CDec c) with (call_of false c). cbn [outcomes]. rewrite py_step. cbn [crypt]. rewrite EE. cbn iota. f_equal. rewrite py_step. cbn [crypt]. rewrite EQ. reflexivity.
  - assert (exists n, List.length p = (16 * S n)%nat) as [n LP].
    { exists (Z.to_nat (len p / 16) - 1)%nat. assert (0 < len p) by (destruct p; [contradiction | rewrite len_cons; pose proof (len_nonneg p); lia]). unfold blocks, len in *. pose proof (Z.div_mod (Z.of_nat (List.length p)) 16 ltac:(lia)). lia. }
    assert (ZN : Z.to_nat (len p / 16) = S n) by (unfold len; lia). unfold cipher_encrypt in EE. rewrite HB, ZN in EE. cbn [Z.eqb c_keys c_iv c0] in EE.
    unfold cipher_decrypt in ED, EQ. rewrite LC, HB, ZN in ED, EQ. cbn [Z.eqb] in ED, EQ. rewrite EK in EQ. cbn [c_keys c_iv c0] in ED, EQ.
    assert (HIV : List.length iv = 16%nat) by (unfold len in HI; lia). pose proof (keys_ok_schedule key HS) as HK. pose proof (cbc_enc_last n (key_schedule key) HK iv p HIV LP) as LAST.
    destruct (cbc_enc (S n) (key_schedule key) iv p) as [co iv1]. apply Ok_inj, pair_inj in EE as [-> EE]. cbn [fst snd] in LAST. assert (EI : c_iv c1 = last16 c) by (rewrite <- EE; exact LAST). rewrite EI in EQ.
    assert (LCn : List.length c = (16 * S n)%nat) by (unfold len in LC; lia). assert (L16 : List.length (last16 c) = 16%nat) by (rewrite <- EI; apply (proj2 HC1)).
    pose proof (cbc_dec_iv n (key_schedule key) iv (last16 c) c HK HIV L16 LCn) as D. destruct (cbc_dec (S n) (key_schedule key) iv c) as [d1 w1]. destruct (cbc_dec (S n) (key_schedule key) (last16 c) c) as [d2 w2].
    apply Ok_inj, pair_inj in ED as [-> _]. apply Ok_inj, pair_inj in EQ as [-> _]. exact D.
Qed.
Print Assumptions C85_both_ways_refuted.

(** A key or an IV of the wrong length: PyCrypto refuses to make the object, M2Crypto makes one that refuses to
    encrypt and to decrypt, and has nothing to finish. *)
Theorem C85_bad_keys : forall key iv, ~ (aes_size_ok key /\ len iv = 16) ->
  CreateCipher PyCrypto key iv = Raise ValueError /\
  forall calls, exists a, CreateCipher M2Crypto key iv = Ok a /\
    Forall2 (fun c r => r = Raise (match c with CFinal | CFinalOf OP_ACTIVE => AssertionError | _ => ValueError end)) calls (outcomes a calls).
Proof.
  intros key iv HN. assert (EN : AES_new key iv = Raise ValueError).
  { unfold AES_new, block_size. destruct (_ && _) eqn:E; [|reflexivity]. exfalso. apply HN. unfold aes_size_ok. lia. }
  split; [unfold CreateCipher; rewrite EN; reflexivity|]. intros calls. exists (EVPAdaptor key iv None None). split; [reflexivity|].
  induction calls as [|c calls IH]; [constructor|]. cbn [outcomes].
  assert (S : ad_step (EVPAdaptor key iv None None) c = (EVPAdaptor key iv None None, Raise (match c with CFinal | CFinalOf OP_ACTIVE => AssertionError | _ => ValueError end))).
  { unfold ad_step. destruct c as [d|d| |[]]; cbn [adaptor_encrypt adaptor_decrypt adaptor_final adaptor_final_of evp_Cipher bind]; unfold EVP_new; rewrite ?EN; reflexivity. }
  rewrite S. constructor; [reflexivity | exact IH].
Qed.
Print Assumptions C85_bad_keys.

(** [final(selector)]: with PyCrypto there is no such parameter; with M2Crypto, after pieces in one direction,
    the selected direction is finished, a fresh one having nothing left. *)
Theorem C85_final_of : forall b b' key iv d pieces, aes_size_ok key -> len iv = 16 ->
  (forall a s calls, CreateCipher PyCrypto key iv = Ok a -> nth_error (outcomes a (calls ++ [CFinalOf s])) (List.length calls) = Some (Raise TypeError)) /\
  exists outs, outcomes (EVPAdaptor key iv None None) (map (call_of b) (d :: pieces) ++ [CFinalOf (if b' : bool then OP_ENCRYPT else OP_DECRYPT)]) =
    map Ok outs ++ [if Bool.eqb b b' && negb (len (concat (d :: pieces)) mod 16 =? 0) then Raise ValueError else Ok []].
Proof.
  intros b b' key iv d pieces HS HI. pose proof (AES_new_iff key iv HS HI) as EN. pose proof (AES_new_ok _ _ _ EN) as HC. split.
  - intros a s calls HA. unfold CreateCipher in HA. rewrite EN in HA. apply Ok_inj in HA as <-. generalize (MkCipher (key_schedule key) iv). induction calls as [|c calls IH]; intros ci; [reflexivity|]. cbn [app outcomes].
    assert (S : exists ci' r, ad_step (AESAdaptor ci) c = (AESAdaptor ci', r)).
    { unfold ad_step. destruct c as [x|x| |s']; cbn [adaptor_encrypt adaptor_decrypt adaptor_final adaptor_final_of bind]; [destruct (cipher_encrypt ci x) as [[o c']|e] | destruct (cipher_decrypt ci x) as [[o c']|e] | |]; eexists; eexists; reflexivity. }
    destruct S as (ci' & r & ->). cbn [List.length nth_error]. apply IH.
  - destruct (m2_run b key iv None (d :: pieces) (MkEvp (MkCipher (key_schedule key) iv) []) [CFinalOf (if b' then OP_ENCRYPT else OP_DECRYPT)] HC ltac:(cbn; lia)) as (outs & c' & full & left & EO & EF & HF & HL & EC & _). cbn [e_buf e_cipher app] in EF, EC.
    exists outs. change (map (call_of b) (d :: pieces) ++ ?x) with (call_of b d :: (map (call_of b) pieces ++ x)) in *. rewrite m2_start by assumption. rewrite EO. f_equal.
    assert (EM : (len (concat (d :: pieces)) mod 16 =? 0) = match left with [] => true | _ => false end).
    { rewrite EF, len_app. unfold blocks in HF. destruct left as [|x left]; [change (len (@nil byte)) with 0; lia|]. rewrite len_cons in *. pose proof (len_nonneg left). lia. }
    rewrite EM. cbn [outcomes]. unfold ad_step, holding. destruct b, b'; cbn [slots fst snd adaptor_final_of evp_Cipher bind Bool.eqb andb]; unfold EVP_new; rewrite ?EN; cbn [bind evp_final e_buf]; destruct left; reflexivity.
Qed.
Print Assumptions C85_final_of.

(** [final(OP_ACTIVE)] is [final()], whatever was called before: the default of the parameter. *)
Theorem C85_final_default : forall key iv enc dec calls,
  outcomes (EVPAdaptor key iv enc dec) (calls ++ [CFinalOf OP_ACTIVE]) = outcomes (EVPAdaptor key iv enc dec) (calls ++ [CFinal]).
Proof.
  intros key iv enc dec calls. revert enc dec. induction calls as [|c calls IH]; intros enc dec; cbn [app outcomes].
  - unfold ad_step. cbn [adaptor_final_of evp_Cipher adaptor_final]. destruct enc as [e|], dec as [d|]; reflexivity.
  - assert (S : exists enc' dec' r, ad_step (EVPAdaptor key iv enc dec) c = (EVPAdaptor key iv enc' dec', r)).
    { unfold ad_step. destruct c as [x|x| |s']; cbn [adaptor_encrypt adaptor_decrypt adaptor_final_of].
      - destruct enc as [e|]; [|destruct (EVP_new key iv) as [e|]]; cbn [bind]; [destruct (evp_update e x) as [[o e']|] | destruct (evp_update e x) as [[o e']|] |]; cbn [bind]; do 3 eexists; reflexivity.
      - destruct (evp_Cipher key iv enc dec OP_DECRYPT) as [[e [en de]]|]; cbn [bind]; [destruct (evp_update_dec e x) as [[o e']|]|]; cbn [bind]; do 3 eexists; reflexivity.
      - destruct (adaptor_final (EVPAdaptor key iv enc dec)); cbn [bind]; do 3 eexists; reflexivity.
      - destruct (evp_Cipher key iv enc dec s') as [[e [en de]]|]; cbn [bind]; [destruct (evp_final e)|]; cbn [bind]; do 3 eexists; reflexivity. }
    destruct S as (enc' & dec' & r & ->). f_equal. apply IH.
Qed.
Print Assumptions C85_final_default.

(** Two pieces, one of them not of complete blocks. *)
Example C85_case : aes_size_ok (bs "fedcba9876543210") /\ len (repeat x2a 16) = 16 /\ Forall blocks [repeat x61 32; repeat x62 16] /\ ~ blocks (bs "abc").
Proof. split; [left; reflexivity|]. split; [reflexivity|]. split; [repeat constructor|]. unfold blocks. vm_compute. discriminate. Qed.
