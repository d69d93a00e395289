(** * DerFacts: lemmas about Der. *)
From Coq Require Import Strings.String.
From Coq Require Import List ZArith NArith Bool Lia ZifyBool ZifyNat ZifyN.
From Coq.Init Require Import Byte.
From Verif Require Import PyBase PyFacts Base64 Util UtilFacts UtilFacts2 Der.
Import ListNotations.
Local Open Scope Z_scope.
Ltac Zify.zify_post_hook ::= Z.div_mod_to_equations.

(** ** Lengths *)

Lemma len_encode_length n l : encode_length n = Ok l -> 1 <= len l.
Proof.
  unfold encode_length. destruct (n <? 128); [intros H; apply Ok_inj in H as <-; cbn; lia|].
  destruct (126 <? _); [discriminate|]. intros H; apply Ok_inj in H as <-.
  rewrite len_cons. pose proof (len_nonneg (BigIntToBytes n)). lia.
Qed.

Lemma decode_encode_length n l rest : 0 <= n -> encode_length n = Ok l ->
  decode_length (l ++ rest) = Ok (n, rest).
Proof.
  intros Hn. unfold encode_length. destruct (n <? 128) eqn:E.
  - intros H; apply Ok_inj in H as <-. cbn [app decode_length].
    rewrite ord_chr_small by lia. rewrite E. reflexivity.
  - destruct (126 <? len (BigIntToBytes n)) eqn:E2; [discriminate|].
    intros H; apply Ok_inj in H as <-. cbn [app decode_length].
    pose proof (len_nonneg (BigIntToBytes n)).
    assert (L : 1 <= len (BigIntToBytes n)).
    { destruct (Z.eq_dec (len (BigIntToBytes n)) 0) as [Z0|]; [|lia].
      apply len_0_nil in Z0. pose proof (BigIntToBytes_val n Hn) as V. rewrite Z0, be_val_nil in V. lia. }
    rewrite ord_chr_small by lia.
    replace (128 + len (BigIntToBytes n) <? 128) with false by lia. cbv zeta.
    replace (128 + len (BigIntToBytes n) - 128) with (len (BigIntToBytes n)) by lia.
    rewrite len_app. pose proof (len_nonneg rest).
    replace ((len (BigIntToBytes n) =? 0) || (len (BigIntToBytes n) + len rest <? len (BigIntToBytes n)))
      with false by lia.
    rewrite slice_to_app, slice_from_app by reflexivity.
    rewrite BytesToLong_val, BigIntToBytes_val by assumption. reflexivity.
Qed.

(** ** Integers *)

Lemma nat_octets_ok n : 0 <= n ->
  exists b t, nat_octets n = b :: t /\ ord b < 128 /\ be_val (b :: t) = n.
Proof.
  intros Hn. unfold nat_octets. pose proof (BigIntToBytes_val n Hn) as V.
  destruct (BigIntToBytes n) as [|b t].
  - exists x00, []. rewrite be_val_nil in V. subst n. repeat split.
  - destruct (128 <=? ord b) eqn:E.
    + exists x00, (b :: t). repeat split. rewrite be_val_cons. change (ord x00) with 0. lia.
    + exists b, t. repeat split; [lia | assumption].
Qed.

Lemma be_val_compl s : be_val (map (fun b => chr (255 - ord b)) s) = 256 ^ len s - 1 - be_val s.
Proof.
  induction s as [|b s IH]; [reflexivity|]. cbn [map]. rewrite !be_val_cons, IH, len_map, len_cons.
  pose proof (ord_range b). rewrite ord_chr_small by lia.
  rewrite Z.pow_add_r by (pose proof (len_nonneg s); lia). change (256 ^ 1) with 256. ring.
Qed.

Lemma octets_int_octets z : octets_int (int_octets z) = Ok z.
Proof.
  unfold int_octets. destruct (z <? 0) eqn:E.
  - destruct (nat_octets_ok (- z - 1)) as (b & t & -> & Hb & V); [lia|].
    set (c := map (fun b => chr (255 - ord b)) (b :: t)).
    assert (Hc : exists h u, c = h :: u /\ 128 <= ord h).
    { exists (chr (255 - ord b)), (map (fun b => chr (255 - ord b)) t). split; [reflexivity|].
      pose proof (ord_range b). rewrite ord_chr_small by lia. lia. }
    destruct Hc as (h & u & Ec & Hh). unfold octets_int. rewrite Ec at 1.
    replace (128 <=? ord h) with true by lia. f_equal.
    rewrite BytesToLong_val. unfold c. rewrite be_val_compl, V, len_map. lia.
  - destruct (nat_octets_ok z) as (b & t & -> & Hb & V); [lia|]. unfold octets_int.
    replace (128 <=? ord b) with false by lia. rewrite BytesToLong_val, V. reflexivity.
Qed.

(** ** Object identifiers *)

Lemma octets_arcs_high fuel n a rest : 0 <= n -> n < 2 ^ Z.of_nat fuel ->
  exists k, 0 <= k /\ (n < 128 ^ k) /\
  octets_arcs a (arc_high fuel n ++ rest)
  = octets_arcs (if n =? 0 then a else Some (match a with None => 0 | Some a => a end * 128 ^ k + n)) rest
  /\ (n = 0 -> k = 0).
Proof.
  revert n a rest. induction fuel as [|fuel IH]; intros n a rest Hn Hf.
  - cbn in Hf. assert (n = 0) as -> by lia. exists 0. cbn. repeat split; lia.
  - cbn [arc_high]. destruct (n =? 0) eqn:E.
    + exists 0. assert (n = 0) as -> by lia. cbn. repeat split; lia.
    + rewrite <- app_assoc. cbn [app].
      assert (Hq : 0 <= n / 128) by (apply Z.div_pos; lia).
      rewrite Nat2Z.inj_succ, Z.pow_succ_r in Hf by lia.
      destruct (IH (n / 128) a (chr (128 + n mod 128) :: rest)) as (k & Hk & Hlt & HE & H0);
        [lia | pose proof (Z.pow_pos_nonneg 2 (Z.of_nat fuel)); lia |].
      exists (k + 1). rewrite Z.pow_add_r by lia. change (128 ^ 1) with 128.
      split; [lia|]. split; [lia|]. split; [|lia]. rewrite HE. cbn [octets_arcs].
      rewrite ord_chr_small by lia. replace (128 <=? 128 + n mod 128) with true by lia.
      f_equal. f_equal. destruct (n / 128 =? 0) eqn:E2.
      * rewrite H0 by lia. change (128 ^ 0) with 1. destruct a; lia.
      * destruct a; lia.
Qed.

Lemma octets_arcs_one n rest l : 0 <= n -> octets_arcs None rest = Ok l ->
  octets_arcs None (arc_octets n ++ rest) = Ok (n :: l).
Proof.
  intros Hn HR. unfold arc_octets. rewrite <- app_assoc. cbn [app].
  destruct (octets_arcs_high (Z.to_nat (Z.log2 n + 1)) (n / 128) None (chr (n mod 128) :: rest))
    as (k & Hk & Hlt & HE & H0).
  - apply Z.div_pos; lia.
  - pose proof (log2_fuel n Hn). lia.
  - rewrite HE. cbn [octets_arcs]. rewrite ord_chr_small by lia.
    replace (128 <=? n mod 128) with false by lia. rewrite HR. cbn [bind]. f_equal. f_equal.
    destruct (n / 128 =? 0) eqn:E; lia.
Qed.

Lemma octets_arcs_all l : Forall (fun a => 0 <= a) l ->
  octets_arcs None (concat (map arc_octets l)) = Ok l.
Proof.
  induction 1 as [|a l Ha HF IH]; [reflexivity|]. cbn [map concat]. apply octets_arcs_one; assumption.
Qed.

Definition oid_ok (a : list Z) : Prop :=
  match a with
  | x :: y :: t => 0 <= x <= 2 /\ 0 <= y /\ (x < 2 -> y < 40) /\ Forall (fun a => 0 <= a) t
  | _ => False
  end.

Lemma octets_oid_octets a b : oid_ok a -> oid_octets a = Ok b -> octets_oid b = Ok a.
Proof.
  destruct a as [|x [|y t]]; cbn [oid_ok]; try contradiction. intros (Hx & Hy & Hxy & HF).
  cbn [oid_octets]. intros H; apply Ok_inj in H as <-. unfold octets_oid.
  rewrite octets_arcs_all by (constructor; [lia | assumption]). cbn [bind]. f_equal.
  assert (x = 0 \/ x = 1 \/ x = 2) as [-> | [-> | ->]] by lia.
  - replace (40 * 0 + y <? 40) with true by lia. repeat f_equal; lia.
  - replace (40 * 1 + y <? 40) with false by lia. replace (40 * 1 + y <? 80) with true by lia.
    repeat f_equal; lia.
  - replace (40 * 2 + y <? 40) with false by lia. replace (40 * 2 + y <? 80) with false by lia.
    repeat f_equal; lia.
Qed.

(** ** Bit strings of whole bytes *)

Lemma bits_octets_bytes k : bits_octets (BytesToBin k) = Ok (x00 :: k).
Proof.
  unfold bits_octets. rewrite len_BytesToBin.
  replace ((8 - (8 * len k) mod 8) mod 8) with 0 by lia. cbv zeta.
  rewrite len_rep_neg by lia. rewrite app_nil_r, BinToBytes_BytesToBin. reflexivity.
Qed.
Lemma octets_bits_bytes k : octets_bits (x00 :: k) = Ok (BytesToBin k).
Proof.
  unfold octets_bits. change (ord x00) with 0. replace ((7 <? 0) || ((len k =? 0) && (0 <? 0))) with false by lia.
  rewrite slice_to_all; [reflexivity|]. rewrite len_BytesToBin. lia.
Qed.

(** ** Values *)

Fixpoint asn1_ok (v : asn1) : Prop :=
  match v with
  | ABits b => exists k, b = BytesToBin k
  | AOid a => oid_ok a
  | ASeq l => (fix go l := match l with [] => True | v :: t => asn1_ok v /\ go t end) l
  | _ => True
  end.

Fixpoint encode_list (l : list asn1) : res str :=
  match l with
  | [] => Ok []
  | v :: t => let* e := encode v in let* r := encode_list t in Ok (e ++ r)
  end.
Lemma encode_ASeq l : encode (ASeq l) = let* b := encode_list l in tlv x30 b.
Proof. reflexivity. Qed.

Definition decode_items (f : nat) : nat -> str -> res (list asn1) :=
  fix items (g : nat) (b : str) : res (list asn1) :=
    match b with
    | [] => Ok []
    | _ => match g with
           | O => Raise PyAsn1Error
           | S g' => let* p := decode_fuel f b in let* r := items g' (snd p) in Ok (fst p :: r)
           end
    end.
Lemma decode_items_S f g c t : decode_items f (S g) (c :: t)
  = let* p := decode_fuel f (c :: t) in let* r := decode_items f g (snd p) in Ok (fst p :: r).
Proof. reflexivity. Qed.

Lemma tlv_inv tag body e : tlv tag body = Ok e ->
  exists l, encode_length (len body) = Ok l /\ e = tag :: l ++ body.
Proof.
  unfold tlv. destruct (encode_length (len body)) as [l|]; [|discriminate]. cbn [bind].
  intros H; apply Ok_inj in H as <-. exists l. split; reflexivity.
Qed.

(** One decoding step on a well-formed tag-length-value. *)
Lemma decode_tlv tag body e fuel rest : tlv tag body = Ok e ->
  decode_fuel (S fuel) (e ++ rest)
  = (if beqb tag x02 then let* z := octets_int body in Ok (AInt z, rest)
     else if beqb tag x03 then let* b := octets_bits body in Ok (ABits b, rest)
     else if beqb tag x04 then Ok (AOctet body, rest)
     else if beqb tag x05 then match body with [] => Ok (ANull, rest) | _ => Raise PyAsn1Error end
     else if beqb tag x06 then let* a := octets_oid body in Ok (AOid a, rest)
     else if beqb tag x30 then let* l := decode_items fuel fuel body in Ok (ASeq l, rest)
     else Raise PyAsn1Error).
Proof.
  intros H. destruct (tlv_inv _ _ _ H) as (l & HL & ->). cbn [app]. cbn [decode_fuel].
  rewrite <- app_assoc. rewrite (decode_encode_length _ _ _ (len_nonneg body) HL). cbn [bind].
  rewrite len_app. pose proof (len_nonneg rest).
  replace (len body + len rest <? len body) with false by lia. cbv zeta.
  rewrite slice_to_app, slice_from_app by reflexivity. reflexivity.
Qed.

Fixpoint asn1_size (v : asn1) : nat :=
  match v with
  | ASeq l => S ((fix go l := match l with [] => O | v :: t => (asn1_size v + go t)%nat end) l)
  | _ => 1%nat
  end.
Lemma asn1_size_pos v : (1 <= asn1_size v)%nat.
Proof. destruct v; cbn; lia. Qed.

Lemma len_nat {A} (l l' : list A) : len l <= len l' <-> (List.length l <= List.length l')%nat.
Proof. unfold len. lia. Qed.

Lemma decode_encode_fuel n : forall v e fuel rest, (asn1_size v <= n)%nat -> asn1_ok v ->
  encode v = Ok e -> (List.length e <= fuel)%nat -> decode_fuel fuel (e ++ rest) = Ok (v, rest).
Proof.
  induction n as [|n IH]; intros v e fuel rest Hn Hok HE Hf.
  { pose proof (asn1_size_pos v). lia. }
  assert (Hfuel : forall tag body, tlv tag body = Ok e ->
            exists f, fuel = S f /\ (List.length body < f)%nat).
  { intros tag body H. destruct (tlv_inv _ _ _ H) as (l & HL & ->).
    apply len_encode_length in HL. unfold len in HL. cbn [List.length] in Hf.
    rewrite app_length in Hf. destruct fuel as [|f]; [lia|]. exists f. split; [reflexivity | lia]. }
  destruct v as [z|b|s| |a|l].
  - cbn [encode] in HE. destruct (Hfuel _ _ HE) as (f & -> & _). rewrite (decode_tlv _ _ _ _ _ HE).
    cbn. rewrite octets_int_octets. reflexivity.
  - cbn [encode asn1_ok] in *. destruct Hok as (k & ->). rewrite bits_octets_bytes in HE. cbn [bind] in HE.
    destruct (Hfuel _ _ HE) as (f & -> & _). rewrite (decode_tlv _ _ _ _ _ HE).
    change (beqb x03 x02) with false. change (beqb x03 x03) with true. cbn iota.
    rewrite octets_bits_bytes. reflexivity.
  - cbn [encode] in HE. destruct (Hfuel _ _ HE) as (f & -> & _). rewrite (decode_tlv _ _ _ _ _ HE). reflexivity.
  - cbn [encode] in HE. destruct (Hfuel _ _ HE) as (f & -> & _). rewrite (decode_tlv _ _ _ _ _ HE). reflexivity.
  - cbn [encode] in HE. apply bind_Ok in HE as (b & Hb & HE). destruct (Hfuel _ _ HE) as (f & -> & _).
    rewrite (decode_tlv _ _ _ _ _ HE).
    change (beqb x06 x02) with false. change (beqb x06 x03) with false. change (beqb x06 x04) with false.
    change (beqb x06 x05) with false. change (beqb x06 x06) with true. cbn iota.
    rewrite (octets_oid_octets _ _ Hok Hb). reflexivity.
  - rewrite encode_ASeq in HE. apply bind_Ok in HE as (b & Hb & HE).
    destruct (Hfuel _ _ HE) as (f & -> & Hlf). rewrite (decode_tlv _ _ _ _ _ HE).
    change (beqb x30 x02) with false. change (beqb x30 x03) with false. change (beqb x30 x04) with false.
    change (beqb x30 x05) with false. change (beqb x30 x06) with false. change (beqb x30 x30) with true. cbn iota.
    assert (G : forall l b g, ((fix go l := match l with [] => O | v :: t => (asn1_size v + go t)%nat end) l <= n)%nat ->
      (fix go l := match l with [] => True | v :: t => asn1_ok v /\ go t end) l ->
      encode_list l = Ok b -> (List.length b <= g)%nat -> (List.length b <= f)%nat ->
      decode_items f g b = Ok l).
    { clear - IH. induction l as [|v l IHl]; intros b g Hs Hk Hb Hg Hf.
      - cbn [encode_list] in Hb. apply Ok_inj in Hb as <-. destruct g; reflexivity.
      - cbn [encode_list] in Hb. apply bind_Ok in Hb as (e & He & Hb). apply bind_Ok in Hb as (r & Hr & Hb).
        apply Ok_inj in Hb as <-. rewrite app_length in Hg, Hf. destruct Hk as [Hk1 Hk2].
        assert (HD : decode_fuel f (e ++ r) = Ok (v, r)).
        { apply IH; [lia | assumption | assumption | lia]. }
        assert (1 <= List.length e)%nat.
        { destruct e; [|cbn; lia]. exfalso.
          destruct v; cbn [encode] in He;
            first [apply tlv_inv in He as (? & _ & He); discriminate
                  | apply bind_Ok in He as (? & _ & He); apply tlv_inv in He as (? & _ & He); discriminate]. }
        destruct g as [|g]; [lia|].
        destruct (e ++ r) as [|c er] eqn:Eer.
        { apply app_eq_nil in Eer as [-> _]. cbn in *; lia. }
        rewrite decode_items_S, HD. cbn [bind snd fst]. rewrite (IHl r g); [reflexivity | | assumption | assumption | lia | lia].
        pose proof (asn1_size_pos v). lia. }
    rewrite (G l b f); [reflexivity | cbn [asn1_size] in Hn; lia | exact Hok | assumption | lia | lia].
Qed.

Lemma decode_encode v e rest : asn1_ok v -> encode v = Ok e -> decode (e ++ rest) = Ok (v, rest).
Proof.
  intros Hok HE. unfold decode. apply (decode_encode_fuel (asn1_size v)); try assumption; [lia|].
  rewrite app_length. lia.
Qed.
Lemma decode_encode' v e : asn1_ok v -> encode v = Ok e -> decode e = Ok (v, []).
Proof. intros. rewrite <- (app_nil_r e). apply decode_encode; assumption. Qed.

(** ** Sequences *)

Lemma mapM_getComponent (l pre : list asn1) :
  mapM (fun i => getComponent (ASeq (pre ++ l)) (Z.of_nat i)) (seq (List.length pre) (List.length l)) = Ok l.
Proof.
  revert pre. induction l as [|v l IH]; intros pre; [reflexivity|]. cbn [List.length seq mapM].
  unfold getComponent at 1. rewrite Nat2Z.id. rewrite nth_error_app2 by lia.
  rewrite Nat.sub_diag. cbn [nth_error bind].
  specialize (IH (pre ++ [v])). rewrite <- app_assoc in IH. cbn [app] in IH.
  rewrite app_length in IH. cbn [List.length] in IH. rewrite Nat.add_1_r in IH. rewrite IH. reflexivity.
Qed.
Lemma ParseASN1Sequence_ASeq l : ParseASN1Sequence (ASeq l) = Ok l.
Proof.
  unfold ParseASN1Sequence, asn1_len. cbn [bind]. rewrite len_length. apply (mapM_getComponent l []).
Qed.
