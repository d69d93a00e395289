(** * Props_Der: the key formats of util.py in terms of ASN.1 (C63). *)
From Coq Require Import Strings.String.
From Coq Require Import List ZArith NArith Bool Lia ZifyBool ZifyNat ZifyN.
From Coq.Init Require Import Byte.
From Verif Require Import PyBase PyFacts Base64 Base64Facts Util UtilFacts Der DerFacts Props_Asym.
Import ListNotations.
Local Open Scope Z_scope.
Ltac Zify.zify_post_hook ::= idtac.

(** ** Specification: the distinguished encoding rules, X.690 *)

(** The number a byte string stands for, most significant byte first. *)
Definition number (s : str) : Z := fold_left (fun a b => 256 * a + ord b) s 0.
(** 8.1.3 with 10.1: the length octets, in the shortest form. *)
Definition der_length (n : Z) (l : str) : Prop :=
  (n < 128 /\ exists b, l = [b] /\ ord b = n) \/
  (128 <= n /\ exists b c t, l = b :: c :: t /\ ord b = 128 + len (c :: t) /\ ord b < 255 /\ c <> x00 /\ number (c :: t) = n).
(** 8.3: an integer in two's complement, with the fewest octets. *)
Definition der_int (z : Z) (s : str) : Prop :=
  exists b t, s = b :: t /\ z = number s - (if 128 <=? ord b then 256 ^ len s else 0) /\
  match t with [] => True | c :: _ => ~ (b = x00 /\ ord c < 128) /\ ~ (b = xff /\ 128 <= ord c) end.
(** 8.19: an arc in base 128, all octets but the last one marked, the first one not empty. *)
Definition der_arc (a : Z) (s : str) : Prop :=
  exists hi lo, s = hi ++ [lo] /\ Forall (fun b => 128 <= ord b) hi /\ ord lo < 128 /\ hd xff hi <> x80 /\
  a = fold_left (fun a b => 128 * a + ord b mod 128) s 0.
Inductive der : asn1 -> str -> Prop :=
| DerInt z l s : der_int z s -> der_length (len s) l -> der (AInt z) (x02 :: l ++ s)
| DerBits k l : der_length (len k + 1) l -> der (ABits (BytesToBin k)) (x03 :: l ++ x00 :: k)
| DerOctet s l : der_length (len s) l -> der (AOctet s) (x04 :: l ++ s)
| DerNull : der ANull [x05; x00]
| DerOid a b arcs ss l : Forall2 der_arc (40 * a + b :: arcs) ss -> der_length (len (concat ss)) l -> der (AOid (a :: b :: arcs)) (x06 :: l ++ concat ss)
| DerSeq vs ss l : Forall2 der vs ss -> der_length (len (concat ss)) l -> der (ASeq vs) (x30 :: l ++ concat ss).

(** ** The encoder follows it *)

Lemma number_val s : number s = be_val s.
Proof.
  unfold number, be_val. generalize 0. induction s as [|b s IH]; intros a; cbn [fold_left be_acc]; [reflexivity|]. rewrite IH. f_equal. lia.
Qed.

Lemma encode_length_der n l : 0 <= n -> encode_length n = Ok l -> der_length n l.
Proof.
  intros Hn H. unfold encode_length in H. destruct (n <? 128) eqn:E.
  - apply Ok_inj in H as <-. left. split; [lia|]. exists (chr n). split; [reflexivity | apply ord_chr_small; lia].
  - cbv zeta in H. destruct (126 <? len (BigIntToBytes n)) eqn:E2; [discriminate|]. apply Ok_inj in H as <-. right. split; [lia|].
    pose proof (BigIntToBytes_head n Hn) as HB. pose proof (BigIntToBytes_val n Hn) as HV. destruct (BigIntToBytes n) as [|c t]; [lia|].
    pose proof (len_nonneg (c :: t)). exists (chr (128 + len (c :: t))), c, t. split; [reflexivity|]. rewrite ord_chr_small by lia. split; [reflexivity|]. split; [lia|].
    split; [apply HB | rewrite number_val; exact HV].
Qed.

Lemma nat_octets_der n : 0 <= n -> exists b t, nat_octets n = b :: t /\ ord b < 128 /\ be_val (b :: t) = n /\ match t with [] => True | c :: _ => b = x00 -> 128 <= ord c end.
Proof.
  intros Hn. unfold nat_octets. pose proof (BigIntToBytes_head n Hn) as HB. pose proof (BigIntToBytes_val n Hn) as HV. destruct (BigIntToBytes n) as [|b t].
  - exists x00, []. split; [reflexivity|]. split; [reflexivity|]. split; [subst n; reflexivity | exact I].
  - destruct (128 <=? ord b) eqn:E.
    + exists x00, (b :: t). split; [reflexivity|]. split; [reflexivity|]. split; [rewrite be_val_cons; change (ord x00) with 0; lia | intros _; lia].
    + exists b, t. split; [reflexivity|]. split; [lia|]. split; [exact HV|]. destruct t; [exact I|]. intros C. exfalso. apply (proj1 HB), C.
Qed.

Lemma int_octets_der z : der_int z (int_octets z).
Proof.
  unfold der_int, int_octets. destruct (z <? 0) eqn:E.
  - destruct (nat_octets_der (- z - 1) ltac:(lia)) as (b & t & EQ & HB & HV & HM). rewrite EQ. cbn [map]. pose proof (ord_range b) as RB.
    exists (chr (255 - ord b)), (map (fun b => chr (255 - ord b)) t). split; [reflexivity|]. split.
    + rewrite ord_chr_small by lia. replace (128 <=? 255 - ord b) with true by lia. rewrite number_val.
      change (chr (255 - ord b) :: map (fun b => chr (255 - ord b)) t) with (map (fun b => chr (255 - ord b)) (b :: t)). rewrite be_val_compl, HV, len_map. lia.
    + destruct t as [|c t]; [exact I|]. cbn [map]. pose proof (ord_range c) as RC. split; intros [A B]; rewrite ord_chr_small in B by lia.
      * apply (f_equal ord) in A. rewrite ord_chr_small in A by lia. change (ord x00) with 0 in A. lia.
      * apply (f_equal ord) in A. rewrite ord_chr_small in A by lia. change (ord xff) with 255 in A. assert (b = x00) by (apply ord_inj; change (ord x00) with 0; lia). specialize (HM H). lia.
  - destruct (nat_octets_der z ltac:(lia)) as (b & t & EQ & HB & HV & HM). rewrite EQ. exists b, t. split; [reflexivity|]. split.
    + replace (128 <=? ord b) with false by lia. rewrite number_val, HV. lia.
    + destruct t as [|c t]; [exact I|]. split; intros [A B]; [specialize (HM A); lia|]. subst b. change (ord xff) with 255 in HB. lia.
Qed.

Definition digits (s : str) (a : Z) : Z := fold_left (fun a b => 128 * a + ord b mod 128) s a.
Lemma arc_high_der fuel : forall n, 0 <= n < 2 ^ Z.of_nat fuel ->
  Forall (fun b => 128 <= ord b) (arc_high fuel n) /\ digits (arc_high fuel n) 0 = n /\ (n <> 0 -> exists b t, arc_high fuel n = b :: t /\ b <> x80) /\ (n = 0 -> arc_high fuel n = []).
Proof.
  induction fuel as [|f IH]; intros n Hn; cbn [arc_high].
  - cbn in Hn. assert (n = 0) as -> by lia. repeat split; [constructor | intros C; contradiction C; reflexivity].
  - destruct (n =? 0) eqn:E; [repeat split; [constructor | cbn; lia | intros C; lia]|].
    rewrite Nat2Z.inj_succ, Z.pow_succ_r in Hn by lia. pose proof (Z.mod_pos_bound n 128 ltac:(lia)) as HM. pose proof (Z.div_mod n 128 ltac:(lia)) as HDM.
    assert (HD : 0 <= n / 128 < 2 ^ Z.of_nat f) by (split; [apply Z.div_pos; lia | apply Z.div_lt_upper_bound; lia]).
    destruct (IH (n / 128) HD) as (A & B & C & D). assert (OC : ord (chr (128 + n mod 128)) = 128 + n mod 128) by (apply ord_chr_small; lia).
    split; [apply Forall_app; split; [exact A | constructor; [lia | constructor]]|]. split; [|split; [|intros; lia]].
    + unfold digits in *. rewrite fold_left_app, B. cbn [fold_left]. rewrite OC. replace ((128 + n mod 128) mod 128) with (n mod 128); [lia|].
      rewrite <- (Z.mod_small (n mod 128) 128) at 1 by lia. rewrite <- (Z.mod_add (n mod 128) 1 128) by lia. f_equal. lia.
    + intros _. destruct (Z.eq_dec (n / 128) 0) as [Z0|NZ].
      * rewrite (D Z0). eexists _, []. split; [reflexivity|]. intros X. apply (f_equal ord) in X. rewrite OC in X. change (ord x80) with 128 in X. lia.
      * destruct (C NZ) as (b & t & -> & HX). eexists b, _. split; [reflexivity | exact HX].
Qed.

Lemma arc_octets_der n : 0 <= n -> der_arc n (arc_octets n).
Proof.
  intros Hn. unfold arc_octets. pose proof (log2_fuel n Hn) as HF. pose proof (Z.mod_pos_bound n 128 ltac:(lia)) as HM. pose proof (Z.div_mod n 128 ltac:(lia)) as HDM.
  assert (HD : 0 <= n / 128 < 2 ^ Z.of_nat (Z.to_nat (Z.log2 n + 1))) by (split; [apply Z.div_pos; lia | apply Z.le_lt_trans with n; [apply Z.div_le_upper_bound; lia | exact HF]]).
  destruct (arc_high_der _ _ HD) as (A & B & C & D). eexists _, _. split; [reflexivity|]. split; [exact A|]. assert (OC : ord (chr (n mod 128)) = n mod 128) by (apply ord_chr_small; lia).
  split; [lia|]. split.
  - destruct (Z.eq_dec (n / 128) 0) as [Z0|NZ]; [rewrite (D Z0); discriminate|]. destruct (C NZ) as (b & t & -> & HX). exact HX.
  - fold (digits (arc_high (Z.to_nat (Z.log2 n + 1)) (n / 128) ++ [chr (n mod 128)]) 0). unfold digits in *. rewrite fold_left_app, B. cbn [fold_left]. rewrite OC, Z.mod_small by lia. lia.
Qed.

Lemma tlv_der tag body e : tlv tag body = Ok e -> exists l, e = tag :: l ++ body /\ der_length (len body) l.
Proof. intros H. destruct (tlv_inv _ _ _ H) as (l & HL & ->). exists l. split; [reflexivity|]. apply encode_length_der; [apply len_nonneg | exact HL]. Qed.

Theorem C63_encoder : forall v s, asn1_ok v -> encode v = Ok s -> der v s.
Proof.
  assert (G : forall n v s, (asn1_size v <= n)%nat -> asn1_ok v -> encode v = Ok s -> der v s).
  { induction n as [|n IH]; intros v s Hn OK H; [pose proof (asn1_size_pos v); lia|]. destruct v as [z|b|o| |a|l].
    - cbn [encode] in H. destruct (tlv_der _ _ _ H) as (l & -> & L). constructor; [apply int_octets_der | exact L].
    - cbn [encode asn1_ok] in *. destruct OK as (k & ->). rewrite bits_octets_bytes in H. cbn [bind] in H. destruct (tlv_der _ _ _ H) as (l & -> & L). constructor.
      rewrite len_cons in L. replace (len k + 1) with (1 + len k) by lia. exact L.
    - cbn [encode] in H. destruct (tlv_der _ _ _ H) as (l & -> & L). constructor. exact L.
    - cbn in H. apply Ok_inj in H as <-. constructor.
    - cbn [encode asn1_ok] in *. apply bind_Ok in H as (b & HB & H). destruct (tlv_der _ _ _ H) as (l & -> & L). destruct a as [|x [|y arcs]]; try discriminate.
      cbn [oid_octets] in HB. apply Ok_inj in HB as <-. constructor; [|exact L].
      assert (F : Forall (fun a => 0 <= a) (40 * x + y :: arcs)).
      { destruct OK as (R1 & R2 & _ & R3). constructor; [|exact R3]. lia. }
      clear - F. induction F as [|c cs H F IH]; [constructor|]. cbn [map]. constructor; [apply arc_octets_der, H | exact IH].
    - rewrite encode_ASeq in H. apply bind_Ok in H as (b & HB & H). destruct (tlv_der _ _ _ H) as (ll & -> & L).
      assert (exists ss, b = concat ss /\ Forall2 der l ss) as (ss & -> & F).
      { clear L H. cbn [asn1_size asn1_ok] in Hn, OK. revert b HB. induction l as [|v l IHl]; intros b HB; cbn [encode_list] in HB.
        - apply Ok_inj in HB as <-. exists []. split; [reflexivity | constructor].
        - apply bind_Ok in HB as (e & HE & HB). apply bind_Ok in HB as (r & HR & HB). apply Ok_inj in HB as <-. destruct OK as [O1 O2].
          destruct (IHl ltac:(cbn in Hn |- *; lia) O2 r HR) as (ss & -> & F). exists (e :: ss). split; [reflexivity|]. constructor; [|exact F].
          apply IH; [cbn in Hn; lia | exact O1 | exact HE]. }
      constructor; assumption. }
  intros v s. apply (G (asn1_size v) v s (le_n _)).
Qed.
Print Assumptions C63_encoder.

(** ** C63: what is exported *)

(** The names under which RFC 8017 (RSA) and RFC 3279 (DSA) know the parameters, in their order. *)
Theorem C63_rsa_private_format : forall d s, ExportRsaPkcs8 d = Ok s ->
  exists n e dd p q dp dq invq key raw,
    param d "n" = Ok n /\ param d "e" = Ok e /\ param d "d" = Ok dd /\ param d "p" = Ok p /\ param d "q" = Ok q /\
    param d "dp" = Ok dp /\ param d "dq" = Ok dq /\ param d "invq" = Ok invq /\
    der (ASeq [AInt 0; AInt n; AInt e; AInt dd; AInt p; AInt q; AInt dp; AInt dq; AInt invq]) key /\
    der (ASeq [AInt 0; ASeq [AOid [1; 2; 840; 113549; 1; 1; 1]; ANull]; AOctet key]) raw /\
    s = Base64WSEncode raw.
Proof.
  intros d s H. unfold ExportRsaPkcs8 in H.
  apply bind_Ok in H as (ks & Hks & H). apply bind_Ok in H as (oct & Ho & H). apply bind_Ok in H as (e & He & H).
  apply Ok_inj in H as <-. destruct (export_ints d RSA_PARAMS ks Hks) as (zs & -> & F). unfold RSA_PARAMS in F.
  inversion F as [|? z1 ? ? P1 F1]; subst; clear F. inversion F1 as [|? z2 ? ? P2 F2]; subst; clear F1. inversion F2 as [|? z3 ? ? P3 F3]; subst; clear F2.
  inversion F3 as [|? z4 ? ? P4 F4]; subst; clear F3. inversion F4 as [|? z5 ? ? P5 F5]; subst; clear F4. inversion F5 as [|? z6 ? ? P6 F6]; subst; clear F5.
  inversion F6 as [|? z7 ? ? P7 F7]; subst; clear F6. inversion F7 as [|? z8 ? ? P8 F8]; subst; clear F7. inversion F8; subst; clear F8.
  exists z1, z2, z3, z4, z5, z6, z7, z8, oct, e. repeat (split; [assumption|]). split; [|split; [|reflexivity]].
  - apply (C63_encoder _ _ (ints_ok [0; z1; z2; z3; z4; z5; z6; z7; z8]) Ho).
  - apply C63_encoder; [|exact He]. pose proof rsa_alg_ok as A. cbn in A |- *. tauto.
Qed.
Print Assumptions C63_rsa_private_format.

Theorem C63_dsa_private_format : forall d s, ExportDsaPkcs8 d = Ok s ->
  exists p q g x key raw,
    param d "p" = Ok p /\ param d "q" = Ok q /\ param d "g" = Ok g /\ param d "x" = Ok x /\
    der (AInt x) key /\
    der (ASeq [AInt 0; ASeq [AOid [1; 2; 840; 10040; 4; 1]; ASeq [AInt p; AInt q; AInt g]]; AOctet key]) raw /\
    s = Base64WSEncode raw.
Proof.
  intros d s H. unfold ExportDsaPkcs8 in H.
  apply bind_Ok in H as (ks & Hks & H). apply bind_Ok in H as (x & Hx & H). apply bind_Ok in H as (oct & Ho & H). apply bind_Ok in H as (e & He & H).
  apply Ok_inj in H as <-. destruct (export_ints d DSA_PARAMS ks Hks) as (zs & -> & F). unfold DSA_PARAMS in F.
  inversion F as [|? z1 ? ? P1 F1]; subst; clear F. inversion F1 as [|? z2 ? ? P2 F2]; subst; clear F1. inversion F2 as [|? z3 ? ? P3 F3]; subst; clear F2. inversion F3; subst; clear F3.
  exists z1, z2, z3, x, oct, e. repeat (split; [assumption|]). split; [|split; [|reflexivity]].
  - apply (C63_encoder (AInt x) _ I Ho).
  - apply C63_encoder; [|exact He]. split; [exact I|]. split; [exact (dsa_alg_ok [z1; z2; z3]) | split; exact I].
Qed.
Print Assumptions C63_dsa_private_format.

Theorem C63_rsa_public_format : forall d s, ExportRsaX509 d = Ok s ->
  exists n e key raw, param d "n" = Ok n /\ param d "e" = Ok e /\ der (ASeq [AInt n; AInt e]) key /\
    der (ASeq [ASeq [AOid [1; 2; 840; 113549; 1; 1; 1]; ANull]; ABits (BytesToBin key)]) raw /\ s = Base64WSEncode raw.
Proof.
  intros d s H. unfold ExportRsaX509 in H. apply bind_Ok in H as (n & Hn & H). apply bind_Ok in H as (e & He & H).
  apply bind_Ok in H as (k & Hk & H). apply bind_Ok in H as (o & Ho & H). apply Ok_inj in H as <-.
  exists n, e, k, o. repeat (split; [assumption|]). split; [|split; [|reflexivity]].
  - apply (C63_encoder _ _ (ints_ok [n; e]) Hk).
  - apply C63_encoder; [|exact Ho]. pose proof rsa_alg_ok as A. split; [exact A|]. split; [exists k; reflexivity | exact I].
Qed.
Print Assumptions C63_rsa_public_format.

Theorem C63_dsa_public_format : forall d s, ExportDsaX509 d = Ok s ->
  exists p q g y key raw, param d "p" = Ok p /\ param d "q" = Ok q /\ param d "g" = Ok g /\ param d "y" = Ok y /\ der (AInt y) key /\
    der (ASeq [ASeq [AOid [1; 2; 840; 10040; 4; 1]; ASeq [AInt p; AInt q; AInt g]]; ABits (BytesToBin key)]) raw /\ s = Base64WSEncode raw.
Proof.
  intros d s H. unfold ExportDsaX509 in H. apply bind_Ok in H as (p & Hp & H). apply bind_Ok in H as (q & Hq & H). apply bind_Ok in H as (g & Hg & H).
  apply bind_Ok in H as (y & Hy & H). apply bind_Ok in H as (k & Hk & H). apply bind_Ok in H as (o & Ho & H). apply Ok_inj in H as <-.
  exists p, q, g, y, k, o. repeat (split; [assumption|]). split; [|split; [|reflexivity]].
  - apply (C63_encoder (AInt y) _ I Hk).
  - apply C63_encoder; [|exact Ho]. split; [exact (dsa_alg_ok [p; q; g])|]. split; [exists k; reflexivity | exact I].
Qed.
Print Assumptions C63_dsa_public_format.

(** ** What is accepted *)

(** The private key structures [ParsePkcs8] accepts, and what it makes of them.  Members after
    the last one needed, and bytes after the structure, are ignored. *)
Inductive pkcs8 : asn1 -> params -> Prop :=
| Pkcs8Rsa alg key rest n e d p q dp dq invq more :
    decode key = Ok (ASeq (AInt 0 :: map AInt [n; e; d; p; q; dp; dq; invq] ++ more), rest) ->
    pkcs8 (ASeq [AInt 0; ASeq [AOid [1; 2; 840; 113549; 1; 1; 1]; alg]; AOctet key])
          [("n", n); ("e", e); ("d", d); ("p", p); ("q", q); ("dp", dp); ("dq", dq); ("invq", invq)]%string
| Pkcs8Dsa key rest p q g x more :
    decode key = Ok (AInt x, rest) ->
    pkcs8 (ASeq [AInt 0; ASeq [AOid [1; 2; 840; 10040; 4; 1]; ASeq (map AInt [p; q; g] ++ more)]; AOctet key])
          [("p", p); ("q", q); ("g", g); ("x", x)]%string.
Inductive x509 : asn1 -> params -> Prop :=
| X509Rsa alg bits key rest n e :
    BinToBytes bits = Ok key -> decode key = Ok (ASeq [AInt n; AInt e], rest) ->
    x509 (ASeq [ASeq [AOid [1; 2; 840; 113549; 1; 1; 1]; alg]; ABits bits]) [("n", n); ("e", e)]%string
| X509Dsa bits key rest p q g y more :
    BinToBytes bits = Ok key -> decode key = Ok (AInt y, rest) ->
    x509 (ASeq [ASeq [AOid [1; 2; 840; 10040; 4; 1]; ASeq (map AInt (p :: q :: g :: more))]; ABits bits]) [("p", p); ("q", q); ("g", g); ("y", y)]%string.

Lemma sequence_ok v l : ParseASN1Sequence v = Ok l -> v = ASeq l \/ l = [].
Proof.
  intros H. destruct v as [z|b|o| |a|vs]; try discriminate H.
  - right. destruct b as [|c b]; [apply Ok_inj in H as <-; reflexivity|]. unfold ParseASN1Sequence in H. cbn [asn1_len bind] in H.
    replace (Z.to_nat (len (c :: b))) with (S (List.length b)) in H by (unfold len; cbn; lia). discriminate H.
  - right. destruct o as [|c b]; [apply Ok_inj in H as <-; reflexivity|]. unfold ParseASN1Sequence in H. cbn [asn1_len bind] in H.
    replace (Z.to_nat (len (c :: b))) with (S (List.length b)) in H by (unfold len; cbn; lia). discriminate H.
  - right. apply Ok_inj in H as <-. reflexivity.
  - right. destruct a as [|c b]; [apply Ok_inj in H as <-; reflexivity|]. unfold ParseASN1Sequence in H. cbn [asn1_len bind] in H.
    replace (Z.to_nat (len (c :: b))) with (S (List.length b)) in H by (unfold len; cbn; lia). discriminate H.
  - left. rewrite ParseASN1Sequence_ASeq in H. apply Ok_inj in H as <-. reflexivity.
Qed.
Lemma int_ok v z : asn1_int v = Ok z -> v = AInt z.
Proof. destruct v; try discriminate. intros H. apply Ok_inj in H as <-. reflexivity. Qed.
Lemma unpack2_ok {A} (l : list A) p : unpack2 l = Ok p -> l = [fst p; snd p].
Proof. destruct l as [|a [|b [|]]]; try discriminate. intros H. apply Ok_inj in H as <-. reflexivity. Qed.
Lemma oid_ok_eq v arcs : oid_is v arcs = true <-> v = AOid arcs.
Proof. split; [|intros ->; cbn; destruct (list_eq_dec Z.eq_dec arcs arcs); congruence]. destruct v; try discriminate. cbn. destruct (list_eq_dec Z.eq_dec _ _); congruence. Qed.
Lemma len3 {A} (l : list A) : (len l =? 3) = true -> exists a b c, l = [a; b; c].
Proof. intros H. destruct l as [|a [|b [|c [|]]]]; rewrite ?len_cons, ?len_nil in H; try lia; [exists a, b, c; reflexivity|]. exfalso. pose proof (len_nonneg l). lia. Qed.
Lemma len2 {A} (l : list A) : (len l =? 2) = true -> exists a b, l = [a; b].
Proof. intros H. destruct l as [|a [|b [|c l]]]; rewrite ?len_cons, ?len_nil in H; try lia; [exists a, b; reflexivity|]. exfalso. pose proof (len_nonneg l). lia. Qed.

(** Reading consecutive members. *)
Lemma read_ok names l off ps : read_params names l off = Ok ps ->
  exists zs more, skipn off l = map AInt zs ++ more /\ List.length zs = List.length names /\ ps = combine names zs.
Proof.
  unfold read_params. revert ps.
  assert (G : forall n2 n1 k ps, names = n1 ++ n2 -> k = List.length n1 ->
     mapM (fun i => let* v := item l (i + off) in let* z := asn1_int v in Ok (nth i names EmptyString, z)) (seq k (List.length n2)) = Ok ps ->
     exists zs more, skipn (k + off) l = map AInt zs ++ more /\ List.length zs = List.length n2 /\ ps = combine n2 zs).
  { induction n2 as [|n n2 IH]; intros n1 k ps EN EK H; cbn [List.length seq mapM] in H.
    - apply Ok_inj in H as <-. exists [], (skipn (k + off) l). repeat split.
    - apply bind_Ok in H as (p & HP & H). apply bind_Ok in HP as (v & HV & HP). apply bind_Ok in HP as (z & HZ & HP). apply Ok_inj in HP as <-. apply int_ok in HZ. subst v.
      apply bind_Ok in H as (ps' & HS & H). apply Ok_inj in H as <-.
      destruct (IH (n1 ++ [n]) (S k) ps') as (zs & more & E1 & E2 & E3); [rewrite <- app_assoc; exact EN | rewrite app_length; cbn; lia | exact HS|].
      unfold item in HV. destruct (nth_error l (k + off)) as [w|] eqn:EW; [|discriminate]. apply Ok_inj in HV as ->.
      exists (z :: zs), more. split; [|split; [cbn; lia|]].
      + cbn [map app]. rewrite <- E1. change (S k + off)%nat with (S (k + off)). clear - EW. revert EW. generalize (k + off)%nat as m. intros m. revert l.
        induction m as [|m IH]; intros [|x l]; cbn [nth_error skipn]; try discriminate; [intros [= ->]; reflexivity | apply IH].
      + cbn [combine]. subst names k. rewrite app_nth2 by lia. rewrite Nat.sub_diag. cbn [nth]. congruence. }
  intros ps H. apply (G names [] 0%nat ps eq_refl eq_refl H).
Qed.

Theorem C63_pkcs8_accepted : forall s d, ParsePkcs8 s = Ok d <-> exists raw v rest, Base64WSDecode s = Ok raw /\ decode raw = Ok (v, rest) /\ pkcs8 v d.
Proof.
  intros s d. unfold ParsePkcs8, b64d. split.
  - intros H. apply bind_Ok in H as (raw & HR & H). apply bind_Ok in H as ([v rest] & HV & H). apply bind_Ok in H as (sq & HS & H). cbn [fst] in HS.
    exists raw, v, rest. split; [exact HR|]. split; [exact HV|]. destruct (len sq =? 3) eqn:E3; [|discriminate H]. apply len3 in E3 as (a & b & c & ->).
    destruct (sequence_ok _ _ HS) as [->|C]; [|discriminate C]. clear HS. cbn [negb item nth_error bind] in H.
    apply bind_Ok in H as (z & HZ & H). apply int_ok in HZ. subst a. destruct (z =? 0) eqn:EZ; [|discriminate H]. apply Z.eqb_eq in EZ. subst z. cbn [negb] in H.
    apply bind_Ok in H as (ids & HI & H). apply bind_Ok in H as ([oid alg] & HO & H). apply unpack2_ok in HO. cbn [fst snd] in *. subst ids.
    destruct (sequence_ok _ _ HI) as [->|C]; [|discriminate C]. clear HI. apply bind_Ok in H as (key & HK & H).
    destruct c as [|?|ks| | |]; try discriminate HK. cbn [decode_octet] in HK. apply bind_Ok in HK as ([kv krest] & HD & HK). apply Ok_inj in HK. cbn [fst] in HK. subst kv.
    destruct (oid_is oid RSA_OID) eqn:E1.
    + apply oid_ok_eq in E1. subst oid. apply bind_Ok in H as (kl & HL & H). apply bind_Ok in H as (k0 & HI0 & H). apply bind_Ok in H as (z & HZ & H). apply int_ok in HZ. subst k0.
      destruct (z =? 0) eqn:EZ; [|discriminate H]. apply Z.eqb_eq in EZ. subst z. cbn [negb] in H.
      destruct kl as [|x kl]; [discriminate HI0|]. cbn [item nth_error] in HI0. apply Ok_inj in HI0. subst x. destruct (sequence_ok _ _ HL) as [->|C]; [|discriminate C].
      apply read_ok in H as (zs & more & EQ & EL & ->). cbn [skipn] in EQ. subst kl. cbn [RSA_PARAMS List.length] in EL.
      destruct zs as [|z1 [|z2 [|z3 [|z4 [|z5 [|z6 [|z7 [|z8 [|? ?]]]]]]]]]; try discriminate EL. eapply Pkcs8Rsa. exact HD.
    + destruct (oid_is oid DSA_OID) eqn:E2; [|discriminate H]. apply oid_ok_eq in E2. subst oid. apply bind_Ok in H as (al & HA & H). apply bind_Ok in H as (ps & HP & H).
      apply bind_Ok in H as (x & HX & H). apply Ok_inj in H as <-. apply int_ok in HX. subst key.
      apply read_ok in HP as (zs & more & EQ & EL & ->). cbn [skipn] in EQ. subst al. cbn [DSA_PARAMS List.length] in EL.
      destruct zs as [|z1 [|z2 [|z3 [|? ?]]]]; try discriminate EL. destruct (sequence_ok _ _ HA) as [->|C]; [|discriminate C]. eapply Pkcs8Dsa. exact HD.
  - intros (raw & v & rest & HR & HV & HP). rewrite HR. cbn [bind]. rewrite HV. cbn [bind fst]. destruct HP as [alg key krest n e d p q dp dq invq more HD|key krest p q g x more HD].
    + rewrite ParseASN1Sequence_ASeq. cbn [bind item nth_error asn1_int]. change (negb (len _ =? 3)) with false. change (negb (0 =? 0)) with false. cbn iota.
      rewrite ParseASN1Sequence_ASeq. cbn [bind unpack2 decode_octet fst snd]. rewrite HD. cbn [bind fst].
      change (oid_is _ RSA_OID) with true. cbn iota. rewrite ParseASN1Sequence_ASeq. reflexivity.
    + rewrite ParseASN1Sequence_ASeq. cbn [bind item nth_error asn1_int]. change (negb (len _ =? 3)) with false. change (negb (0 =? 0)) with false. cbn iota.
      rewrite ParseASN1Sequence_ASeq. cbn [bind unpack2 decode_octet fst snd]. rewrite HD. cbn [bind fst].
      change (oid_is _ RSA_OID) with false. change (oid_is _ DSA_OID) with true. cbn iota. rewrite ParseASN1Sequence_ASeq. reflexivity.
Qed.
Print Assumptions C63_pkcs8_accepted.

Lemma ints_read l zs : mapM asn1_int l = Ok zs -> l = map AInt zs.
Proof.
  revert zs. induction l as [|v l IH]; intros zs H; cbn [mapM] in H; [apply Ok_inj in H as <-; reflexivity|].
  apply bind_Ok in H as (z & HZ & H). apply bind_Ok in H as (r & HR & H). apply Ok_inj in H as <-. cbn [map]. rewrite (int_ok _ _ HZ), (IH r HR). reflexivity.
Qed.
Lemma read_ints zs : mapM asn1_int (map AInt zs) = Ok zs.
Proof. induction zs as [|z zs IH]; cbn [map mapM asn1_int bind]; [reflexivity|]. rewrite IH. reflexivity. Qed.

Theorem C63_x509_accepted : forall s d, ParseX509 s = Ok d <-> exists raw v rest, Base64WSDecode s = Ok raw /\ decode raw = Ok (v, rest) /\ x509 v d.
Proof.
  intros s d. unfold ParseX509, b64d. split.
  - intros H. apply bind_Ok in H as (raw & HR & H). apply bind_Ok in H as ([v rest] & HV & H). apply bind_Ok in H as (sq & HS & H). cbn [fst] in HS.
    exists raw, v, rest. split; [exact HR|]. split; [exact HV|]. destruct (len sq =? 2) eqn:E3; [|discriminate H]. apply len2 in E3 as (a & b & ->).
    destruct (sequence_ok _ _ HS) as [->|C]; [|discriminate C]. clear HS. cbn [negb item nth_error bind] in H.
    apply bind_Ok in H as (ids & HI & H). apply bind_Ok in H as ([oid alg] & HO & H). apply unpack2_ok in HO. cbn [fst snd] in *. subst ids.
    destruct (sequence_ok _ _ HI) as [->|C]; [|discriminate C]. clear HI. apply bind_Ok in H as (kb & HK & H). destruct b as [|bits| | | |]; try discriminate HK. cbn [bits_bytes] in HK.
    apply bind_Ok in H as ([kv krest] & HD & H). cbn [fst] in H. destruct (oid_is oid RSA_OID) eqn:E1.
    + apply oid_ok_eq in E1. subst oid. apply bind_Ok in H as (l & HL & H). apply bind_Ok in H as (zs & HZ & H). apply bind_Ok in H as ([n e] & HN & H). apply Ok_inj in H as <-. cbn [fst snd].
      apply unpack2_ok in HN. cbn [fst snd] in HN. subst zs. apply ints_read in HZ. subst l. destruct (sequence_ok _ _ HL) as [->|C]; [|discriminate C]. eapply X509Rsa; [exact HK | exact HD].
    + destruct (oid_is oid DSA_OID) eqn:E2; [|discriminate H]. apply oid_ok_eq in E2. subst oid. apply bind_Ok in H as (l & HL & H). apply bind_Ok in H as (zs & HZ & H).
      apply ints_read in HZ. subst l. apply bind_Ok in H as (ps & HP & H). apply bind_Ok in H as (y & HY & H). apply Ok_inj in H as <-. apply int_ok in HY. subst kv.
      destruct zs as [|z1 [|z2 [|z3 zs]]]; try discriminate HP. cbn in HP. apply Ok_inj in HP as <-. destruct (sequence_ok _ _ HL) as [->|C]; [|discriminate C].
      eapply X509Dsa; [exact HK | exact HD].
  - intros (raw & v & rest & HR & HV & HP). rewrite HR. cbn [bind]. rewrite HV. cbn [bind fst]. destruct HP as [alg bits key krest n e HB HD|bits key krest p q g y more HB HD].
    + rewrite ParseASN1Sequence_ASeq. cbn [bind item nth_error]. change (negb (len _ =? 2)) with false. cbn iota.
      rewrite ParseASN1Sequence_ASeq. cbn [bind unpack2 bits_bytes fst snd]. rewrite HB. cbn [bind]. rewrite HD. cbn [bind fst].
      change (oid_is _ RSA_OID) with true. cbn iota. rewrite ParseASN1Sequence_ASeq. reflexivity.
    + rewrite ParseASN1Sequence_ASeq. cbn [bind item nth_error]. change (negb (len _ =? 2)) with false. cbn iota.
      rewrite ParseASN1Sequence_ASeq. cbn [bind unpack2 bits_bytes fst snd]. rewrite HB. cbn [bind]. rewrite HD. cbn [bind fst].
      change (oid_is _ RSA_OID) with false. change (oid_is _ DSA_OID) with true. cbn iota. rewrite ParseASN1Sequence_ASeq. cbn [bind]. rewrite read_ints. reflexivity.
Qed.
Print Assumptions C63_x509_accepted.

(** ** When the export succeeds *)

Lemma len_tlv tag body e : tlv tag body = Ok e -> len e <= len body + 128.
Proof.
  intros H. destruct (tlv_inv _ _ _ H) as (l & HL & ->). rewrite len_cons, len_app. unfold encode_length in HL. destruct (len body <? 128).
  - apply Ok_inj in HL as <-. rewrite len_cons, len_nil. lia.
  - cbv zeta in HL. destruct (126 <? len (BigIntToBytes (len body))) eqn:E; [discriminate|]. apply Ok_inj in HL as <-. rewrite len_cons. lia.
Qed.
Lemma tlv_small tag body : len body < 2 ^ 64 -> exists e, tlv tag body = Ok e.
Proof.
  intros H. destruct (tlv_ok tag body) as (e & E & _); [|exists e; exact E]. apply Z.lt_le_trans with (1 := H).
  change (256 ^ 126) with ((2 ^ 8) ^ 126). rewrite <- Z.pow_mul_r by lia. apply Z.pow_le_mono_r; lia.
Qed.

(** Parameters of up to 2^59 bytes. *)
Definition moderate (z : Z) : Prop := exists k, 0 <= k <= 2 ^ 59 /\ - 256 ^ k <= z < 256 ^ k.
Lemma int_small z : moderate z -> exists e, encode (AInt z) = Ok e /\ len e <= 2 ^ 59 + 129.
Proof.
  intros (k & K & H). apply len_int_octets in H; [|apply K]. assert (L : len (int_octets z) <= 2 ^ 59 + 1) by (etransitivity; [exact H | apply Z.add_le_mono_r, K]). clear H K k.
  change (2 ^ 59) with 576460752303423488 in *. cbn [encode]. destruct (tlv_small x02 (int_octets z)) as (e & E).
  - clear - L. change (2 ^ 64) with 18446744073709551616. lia.
  - exists e. split; [exact E|]. apply len_tlv in E. clear - E L. lia.
Qed.
Lemma ints_small zs : Forall moderate zs -> exists e, encode_list (map AInt zs) = Ok e /\ len e <= len zs * (2 ^ 59 + 129).
Proof.
  induction 1 as [|z zs HZ F (e & E & L)]; cbn [map encode_list]; [exists []; split; [reflexivity | discriminate]|].
  destruct (int_small z HZ) as (e1 & E1 & L1). rewrite E1. cbn [bind]. rewrite E. cbn [bind]. exists (e1 ++ e). split; [reflexivity|].
  rewrite len_app, len_cons. clear - L L1. change (2 ^ 59) with 576460752303423488 in *. lia.
Qed.
Lemma seq_small zs : Forall moderate zs -> len zs <= 9 -> exists e, encode (ASeq (map AInt zs)) = Ok e /\ len e <= 9 * (2 ^ 59 + 129) + 128.
Proof.
  intros F L. destruct (ints_small zs F) as (b & E & LB). rewrite encode_ASeq, E. cbn [bind].
  assert (LB' : len b <= 9 * (2 ^ 59 + 129)) by (clear - L LB; change (2 ^ 59) with 576460752303423488 in *; nia). clear LB.
  destruct (tlv_small x30 b) as (e & EE).
  - clear - LB'. change (2 ^ 59) with 576460752303423488 in LB'. change (2 ^ 64) with 18446744073709551616. lia.
  - exists e. split; [exact EE|]. apply len_tlv in EE. clear - EE LB'. change (2 ^ 59) with 576460752303423488 in *. lia.
Qed.

Lemma params_read d names zs : Forall2 (fun n z => param d n = Ok z) names zs -> mapM (fun n => let* z := param d n in Ok (AInt z)) names = Ok (map AInt zs).
Proof. induction 1 as [|n z names zs H F IH]; cbn [mapM map]; [reflexivity|]. rewrite H. cbn [bind]. rewrite IH. reflexivity. Qed.

Theorem C63_export_succeeds : forall d, 
  (forall zs, Forall2 (fun n z => param d n = Ok z) ["n"; "e"; "d"; "p"; "q"; "dp"; "dq"; "invq"]%string zs -> Forall moderate zs -> exists s, ExportRsaPkcs8 d = Ok s) /\
  (forall zs, Forall2 (fun n z => param d n = Ok z) ["p"; "q"; "g"; "x"]%string zs -> Forall moderate zs -> exists s, ExportDsaPkcs8 d = Ok s) /\
  (forall zs, Forall2 (fun n z => param d n = Ok z) ["n"; "e"]%string zs -> Forall moderate zs -> exists s, ExportRsaX509 d = Ok s) /\
  (forall zs, Forall2 (fun n z => param d n = Ok z) ["p"; "q"; "g"; "y"]%string zs -> Forall moderate zs -> exists s, ExportDsaX509 d = Ok s).
Proof.
  assert (M0 : moderate 0) by (exists 0; split; [split; [reflexivity | discriminate] | split; [discriminate | reflexivity]]).
  destruct (int_small 0 M0) as (z0 & E0 & L0). assert (ER : exists r, encode (ASeq [AOid RSA_OID; ANull]) = Ok r /\ len r = 15) by (eexists; split; vm_compute; reflexivity).
  destruct ER as (er & ER & LR). assert (ED : exists r, encode (AOid DSA_OID) = Ok r /\ len r = 9) by (eexists; split; vm_compute; reflexivity). destruct ED as (ed & ED & LD).
  assert (TL : forall tag b, len b <= 24 * 2 ^ 59 -> exists e, tlv tag b = Ok e /\ len e <= len b + 128).
  { intros tag b H. destruct (tlv_small tag b) as (e & E); [|exists e; split; [exact E | apply (len_tlv _ _ _ E)]].
    clear - H. change (2 ^ 59) with 576460752303423488 in H. change (2 ^ 64) with 18446744073709551616. lia. }
  change (2 ^ 59) with 576460752303423488 in *.
  assert (SZ : forall zs, Forall moderate zs -> len zs <= 9 -> exists e, encode (ASeq (map AInt zs)) = Ok e /\ len e <= 9 * (576460752303423488 + 129) + 128) by exact seq_small.
  assert (IZ : forall z, moderate z -> exists e, encode (AInt z) = Ok e /\ len e <= 576460752303423488 + 129) by exact int_small.
  intros d. split; [|split; [|split]]; intros zs F M.
  - unfold ExportRsaPkcs8, RSA_PARAMS. rewrite (params_read d _ zs F). cbn [bind].
    assert (L8 : len zs = 8) by (pose proof (Forall2_len _ _ _ F) as L; cbn in L; unfold len; rewrite L; reflexivity).
    destruct (SZ (0 :: zs)) as (oct & EO & LO); [constructor; assumption | rewrite len_cons; lia|]. cbn [map] in EO. rewrite EO. cbn [bind].
    rewrite encode_ASeq. cbn [encode_list]. rewrite E0, ER. cbn [bind]. cbn [encode]. destruct (TL x04 oct) as (eo & EQ & LQ); [lia|]. rewrite EQ. cbn [bind].
    destruct (TL x30 (z0 ++ er ++ eo ++ [])) as (e & EE & _); [rewrite !len_app, len_nil; lia|]. rewrite EE. eexists. reflexivity.
  - inversion F as [|? p ? ? P1 F1]; subst; clear F. inversion F1 as [|? q ? ? P2 F2]; subst; clear F1. inversion F2 as [|? g ? ? P3 F3]; subst; clear F2. inversion F3 as [|? x ? ? P4 F4]; subst; clear F3.
    inversion F4; subst; clear F4. inversion M as [|? ? M1 M']; subst; clear M. inversion M' as [|? ? M2 M]; subst; clear M'. inversion M as [|? ? M3 M']; subst; clear M. inversion M' as [|? ? M4 M]; subst; clear M'.
    unfold ExportDsaPkcs8, DSA_PARAMS. cbn [mapM]. rewrite P1, P2, P3, P4. cbn [bind]. destruct (IZ x M4) as (ex & EX & LX). rewrite EX. cbn [bind].
    destruct (SZ [p; q; g]) as (es & ES & LS); [repeat constructor; assumption | rewrite !len_cons, len_nil; lia|]. cbn [map] in ES.
    rewrite encode_ASeq. cbn [encode_list]. rewrite E0. cbn [bind]. rewrite (encode_ASeq [AOid DSA_OID; _]). cbn [encode_list]. rewrite ED, ES. cbn [bind].
    destruct (TL x30 (ed ++ es ++ [])) as (ea & EA & LA); [rewrite !len_app, len_nil; lia|]. rewrite EA. cbn [bind]. cbn [encode]. destruct (TL x04 ex) as (eo & EQ & LQ); [lia|]. rewrite EQ. cbn [bind].
    destruct (TL x30 (z0 ++ ea ++ eo ++ [])) as (e & EE & _); [rewrite !len_app, ?len_nil in *; lia|]. rewrite EE. eexists. reflexivity.
  - inversion F as [|? n ? ? P1 F1]; subst; clear F. inversion F1 as [|? e ? ? P2 F2]; subst; clear F1. inversion F2; subst; clear F2.
    unfold ExportRsaX509. rewrite P1, P2. cbn [bind]. destruct (SZ [n; e] M) as (k & EK & LK); [rewrite !len_cons, len_nil; lia|]. cbn [map] in EK. rewrite EK. cbn [bind].
    rewrite encode_ASeq. cbn [encode_list]. rewrite ER. cbn [bind encode]. rewrite bits_octets_bytes. cbn [bind]. destruct (TL x03 (x00 :: k)) as (eb & EB & LB); [rewrite len_cons; lia|]. rewrite EB. cbn [bind].
    rewrite len_cons in LB. destruct (TL x30 (er ++ eb ++ [])) as (o & EE & _); [rewrite !len_app, len_nil; lia|]. rewrite EE. eexists. reflexivity.
  - inversion F as [|? p ? ? P1 F1]; subst; clear F. inversion F1 as [|? q ? ? P2 F2]; subst; clear F1. inversion F2 as [|? g ? ? P3 F3]; subst; clear F2. inversion F3 as [|? y ? ? P4 F4]; subst; clear F3.
    inversion F4; subst; clear F4. inversion M as [|? ? M1 M']; subst; clear M. inversion M' as [|? ? M2 M]; subst; clear M'. inversion M as [|? ? M3 M']; subst; clear M. inversion M' as [|? ? M4 M]; subst; clear M'.
    unfold ExportDsaX509. rewrite P1, P2, P3, P4. cbn [bind]. destruct (IZ y M4) as (k & EK & LK). rewrite EK. cbn [bind].
    destruct (SZ [p; q; g]) as (es & ES & LS); [repeat constructor; assumption | rewrite !len_cons, len_nil; lia|]. cbn [map] in ES.
    rewrite encode_ASeq. cbn [encode_list]. rewrite (encode_ASeq [AOid DSA_OID; _]). cbn [encode_list]. rewrite ED, ES. cbn [bind].
    destruct (TL x30 (ed ++ es ++ [])) as (ea & EA & LA); [rewrite !len_app, len_nil; lia|]. rewrite EA. cbn [bind encode]. rewrite bits_octets_bytes. cbn [bind].
    destruct (TL x03 (x00 :: k)) as (eb & EB & LB); [rewrite len_cons; lia|]. rewrite EB. cbn [bind]. rewrite len_cons in LB.
    destruct (TL x30 (ea ++ eb ++ [])) as (o & EE & _); [rewrite !len_app, ?len_nil in *; lia|]. rewrite EE. eexists. reflexivity.
Qed.
Print Assumptions C63_export_succeeds.

(** A missing parameter. *)
Theorem C63_missing_parameter : forall d n, (forall z, param d n <> Ok z) ->
  (In n ["n"; "e"; "d"; "p"; "q"; "dp"; "dq"; "invq"]%string -> ExportRsaPkcs8 d = Raise KeyError) /\
  (In n ["p"; "q"; "g"]%string -> ExportDsaPkcs8 d = Raise KeyError /\ ExportDsaX509 d = Raise KeyError) /\
  (In n ["n"; "e"]%string -> ExportRsaX509 d = Raise KeyError) /\
  (n = "x"%string -> exists e, ExportDsaPkcs8 d = Raise e) /\ (n = "y"%string -> exists e, ExportDsaX509 d = Raise e).
Proof.
  intros d n HN. assert (PE : forall m, (exists z, param d m = Ok z) \/ param d m = Raise KeyError).
  { intros m. clear. induction d as [|[k v] d IH]; cbn [param]; [right; reflexivity|]. destruct (String.eqb k m); [left; exists v; reflexivity | exact IH]. }
  assert (NE : param d n = Raise KeyError) by (destruct (PE n) as [(z & E)|E]; [exfalso; apply (HN z E) | exact E]).
  assert (MM : forall names, In n names -> mapM (fun n => let* z := param d n in Ok (AInt z)) names = Raise KeyError).
  { induction names as [|m names IH]; intros HI; [destruct HI|]. cbn [mapM]. destruct (PE m) as [(z & E)|E]; rewrite E; cbn [bind]; [|reflexivity].
    destruct HI as [->|HI]; [rewrite NE in E; discriminate|]. rewrite (IH HI). reflexivity. }
  split; [intros HI; unfold ExportRsaPkcs8, RSA_PARAMS; rewrite (MM _ HI); reflexivity|].
  split; [intros HI; split; [unfold ExportDsaPkcs8, DSA_PARAMS; rewrite (MM _ HI); reflexivity|]|].
  - unfold ExportDsaX509. destruct (PE "p"%string) as [(p & E1)|E1]; rewrite E1; cbn [bind]; [|reflexivity]. destruct (PE "q"%string) as [(q & E2)|E2]; rewrite E2; cbn [bind]; [|reflexivity].
    destruct (PE "g"%string) as [(g & E3)|E3]; rewrite E3; cbn [bind]; [|reflexivity]. exfalso. cbn [In] in HI. destruct HI as [<-|[<-|[<-|[]]]]; congruence.
  - split; [|split].
    + intros HI. unfold ExportRsaX509. destruct (PE "n"%string) as [(p & E1)|E1]; rewrite E1; cbn [bind]; [|reflexivity]. destruct (PE "e"%string) as [(q & E2)|E2]; rewrite E2; cbn [bind]; [|reflexivity].
      exfalso. cbn [In] in HI. destruct HI as [<-|[<-|[]]]; congruence.
    + intros ->. unfold ExportDsaPkcs8. destruct (mapM _ _); cbn [bind]; [|eexists; reflexivity]. rewrite NE. eexists. reflexivity.
    + intros ->. unfold ExportDsaX509. destruct (param d "p"); cbn [bind]; [|eexists; reflexivity]. destruct (param d "q"); cbn [bind]; [|eexists; reflexivity].
      destruct (param d "g"); cbn [bind]; [|eexists; reflexivity]. rewrite NE. eexists. reflexivity.
Qed.
Print Assumptions C63_missing_parameter.

Example C63_case : let d := [("y", 2 ^ 1030); ("p", 7); ("g", -1); ("q", 255)]%string in
  (exists s, ExportDsaX509 d = Ok s) /\ (forall z, param d "x" <> Ok z) /\ der (AInt (-129)) [x02; x02; xff; x7f].
Proof.
  split; [eexists; vm_compute; reflexivity|]. split; [discriminate|]. apply C63_encoder; [exact I | vm_compute; reflexivity].
Qed.
