(** * Props_Ber: what the DER decoder behind util.py accepts, and which error the parsers raise
    (C63, continued). *)
From Coq Require Import Strings.String.
From Coq Require Import List ZArith NArith Bool Lia ZifyBool ZifyNat ZifyN.
From Coq.Init Require Import Byte.
From Verif Require Import PyBase PyFacts Base64 Base64Facts Util UtilFacts UtilFacts2 Der DerFacts AsymKeys Props_Util Props_Asym Props_Der.
Import ListNotations.
Local Open Scope Z_scope.
Ltac Zify.zify_post_hook ::= idtac.

(** ** Specification: the basic encoding rules with definite lengths (X.690, clause 8) *)

(** 8.1.3: the length octets, with any number of leading zeros in the long form. *)
Definition ber_length (n : Z) (l : str) : Prop :=
  exists b t, l = b :: t /\ ((t = [] /\ ord b < 128 /\ n = ord b) \/ (t <> [] /\ ord b = 128 + len t /\ n = number t)).
(** 8.3: an integer in two's complement, in one octet or more. *)
Definition ber_int (z : Z) (s : str) : Prop :=
  exists b t, s = b :: t /\ z = number s - (if 128 <=? ord b then 256 ^ len s else 0).
(** 8.19: an arc in base 128, all octets but the last one marked. *)
Definition ber_arc (a : Z) (s : str) : Prop :=
  exists hi lo, s = hi ++ [lo] /\ Forall (fun b => 128 <= ord b) hi /\ ord lo < 128 /\
  a = fold_left (fun a b => 128 * a + ord b mod 128) s 0.
(** 8.6: the bits of the octets, the most significant one first, without the unused ones at the
    end. *)
Definition bit (b : byte) (i : Z) : byte := if Z.testbit (ord b) i then "1"%byte else "0"%byte.
Definition octet_bits (b : byte) : str := map (bit b) [7; 6; 5; 4; 3; 2; 1; 0].
Definition ber_bits (bits : str) (s : str) : Prop :=
  exists u t junk, s = u :: t /\ ord u < 8 /\ len junk = ord u /\ flat_map octet_bits t = bits ++ junk.
Inductive ber : asn1 -> str -> Prop :=
| BerInt z l s : ber_int z s -> ber_length (len s) l -> ber (AInt z) (x02 :: l ++ s)
| BerBits bits l s : ber_bits bits s -> ber_length (len s) l -> ber (ABits bits) (x03 :: l ++ s)
| BerOctet s l : ber_length (len s) l -> ber (AOctet s) (x04 :: l ++ s)
| BerNull l : ber_length 0 l -> ber ANull (x05 :: l)
| BerOid a b n arcs ss l : Forall2 ber_arc (n :: arcs) ss -> n = 40 * a + b -> 0 <= a <= 2 -> 0 <= b -> (a < 2 -> b < 40) ->
    ber_length (len (concat ss)) l -> ber (AOid (a :: b :: arcs)) (x06 :: l ++ concat ss)
| BerSeq vs ss l : Forall2 ber vs ss -> ber_length (len (concat ss)) l -> ber (ASeq vs) (x30 :: l ++ concat ss).

(** ** The decoder accepts exactly this *)


Lemma decode_length_iff s n rest : decode_length s = Ok (n, rest) <-> exists l, s = l ++ rest /\ ber_length n l.
Proof.
  split.
  - destruct s as [|b t]; [discriminate|]. cbn [decode_length]. pose proof (ord_range b) as RB. destruct (ord b <? 128) eqn:E.
    + intros H. apply Ok_inj in H. apply pair_inj in H as [<- <-]. exists [b]. split; [reflexivity|]. exists b, []. split; [reflexivity|]. left. split; [reflexivity|]. split; [lia | reflexivity].
    + cbv zeta. destruct ((ord b - 128 =? 0) || (len t <? ord b - 128)) eqn:E2; [discriminate|]. intros H. apply Ok_inj in H. apply pair_inj in H as [<- <-].
      exists (b :: slice_to t (ord b - 128)). split; [cbn [app]; rewrite slice_to_from; reflexivity|]. exists b, (slice_to t (ord b - 128)). split; [reflexivity|].
      assert (L : len (slice_to t (ord b - 128)) = ord b - 128) by (apply len_slice_to; lia).
      right. split; [intros C; rewrite C, len_nil in L; lia|]. split; [lia|]. rewrite number_val. apply BytesToLong_val.
  - intros (l & -> & b & t & -> & [(-> & HB & ->)|(HT & HB & ->)]); cbn [app decode_length]; pose proof (ord_range b) as RB; pose proof (len_nonneg rest) as HR.
    + replace (ord b <? 128) with true by lia. reflexivity.
    + pose proof (len_nonneg t) as HL. assert (len t <> 0) by (intros C; apply HT, len_0_nil, C). replace (ord b <? 128) with false by lia. cbv zeta.
      rewrite len_app. replace ((ord b - 128 =? 0) || (len t + len rest <? ord b - 128)) with false by lia.
      rewrite slice_to_app, slice_from_app by lia. rewrite BytesToLong_val, number_val. reflexivity.
Qed.

Lemma octets_int_iff s z : octets_int s = Ok z <-> ber_int z s.
Proof.
  unfold ber_int. split.
  - destruct s as [|b t]; [discriminate|]. cbn [octets_int]. intros H. apply Ok_inj in H as <-. exists b, t. split; [reflexivity|]. rewrite number_val, BytesToLong_val. destruct (128 <=? ord b); lia.
  - intros (b & t & -> & ->). cbn [octets_int]. rewrite number_val, BytesToLong_val. destruct (128 <=? ord b); f_equal; lia.
Qed.

Lemma bits8_bits b : bits8 b = octet_bits b.
Proof.
  assert (H : (if list_eq_dec Byte.byte_eq_dec (bits8 b) (octet_bits b) then true else false) = true)
    by (apply (forall_bytes (fun b => if list_eq_dec Byte.byte_eq_dec (bits8 b) (octet_bits b) then true else false)); vm_compute; reflexivity).
  destruct (list_eq_dec Byte.byte_eq_dec (bits8 b) (octet_bits b)); [assumption | discriminate].
Qed.
Lemma BytesToBin_bits t : BytesToBin t = flat_map octet_bits t.
Proof. induction t as [|b t IH]; [reflexivity|]. unfold BytesToBin in *. cbn [map concat flat_map]. rewrite IH. f_equal. apply bits8_bits. Qed.

Lemma octets_bits_iff s bits : octets_bits s = Ok bits <-> ber_bits bits s.
Proof.
  unfold ber_bits. split.
  - destruct s as [|u t]; [discriminate|]. cbn [octets_bits]. pose proof (ord_range u). pose proof (len_nonneg t). destruct ((7 <? ord u) || ((len t =? 0) && (0 <? ord u))) eqn:E; [discriminate|].
    intros H1. apply Ok_inj in H1 as <-. exists u, t, (slice_from (BytesToBin t) (8 * len t - ord u)). split; [reflexivity|]. split; [lia|].
    pose proof (len_BytesToBin t) as L. assert (0 <= 8 * len t - ord u <= len (BytesToBin t)) by lia. split; [rewrite len_slice_from by assumption; lia|].
    rewrite slice_to_from. symmetry. apply BytesToBin_bits.
  - intros (u & t & junk & -> & HU & HJ & HF). cbn [octets_bits]. rewrite <- BytesToBin_bits in HF. pose proof (len_BytesToBin t) as L. rewrite HF, len_app in L. pose proof (len_nonneg bits). pose proof (len_nonneg t).
    replace ((7 <? ord u) || ((len t =? 0) && (0 <? ord u))) with false by lia. rewrite HF, slice_to_app by lia. reflexivity.
Qed.

Definition arc_from (a0 : Z) (a : Z) (s : str) : Prop :=
  exists hi lo, s = hi ++ [lo] /\ Forall (fun b => 128 <= ord b) hi /\ ord lo < 128 /\ a = fold_left (fun a b => 128 * a + ord b mod 128) s a0.
Lemma high_mod b : 128 <= ord b -> ord b mod 128 = ord b - 128.
Proof. intros H. pose proof (ord_range b). symmetry. apply Z.mod_unique with 1; lia. Qed.

Lemma octets_arcs_sound s : forall acc l, octets_arcs acc s = Ok l ->
  match acc with
  | None => exists ss, s = concat ss /\ Forall2 ber_arc l ss
  | Some a0 => exists a t e ss, l = a :: t /\ s = e ++ concat ss /\ arc_from a0 a e /\ Forall2 ber_arc t ss
  end.
Proof.
  induction s as [|b s IH]; intros acc l H; cbn [octets_arcs] in H.
  - destruct acc; [discriminate|]. apply Ok_inj in H as <-. exists []. split; [reflexivity | constructor].
  - pose proof (ord_range b) as RB.
    assert (G : forall a0, (if 128 <=? ord b then octets_arcs (Some (a0 * 128 + (ord b - 128))) s else let* r := octets_arcs None s in Ok (a0 * 128 + ord b :: r)) = Ok l ->
      exists a t e ss, l = a :: t /\ b :: s = e ++ concat ss /\ arc_from a0 a e /\ Forall2 ber_arc t ss).
    { clear H. intros a0 H. destruct (128 <=? ord b) eqn:E.
      - destruct (IH _ _ H) as (a & t & e & ss & -> & -> & (hi & lo & -> & F & HL & ->) & F2). eexists _, t, (b :: hi ++ [lo]), ss. split; [reflexivity|]. split; [reflexivity|]. split; [|exact F2].
        exists (b :: hi), lo. split; [reflexivity|]. split; [constructor; [lia | exact F]|]. split; [exact HL|]. cbn [fold_left]. rewrite high_mod by lia. do 2 f_equal. lia.
      - apply bind_Ok in H as (r & HR & H). apply Ok_inj in H as <-. destruct (IH _ _ HR) as (ss & -> & F). eexists _, r, [b], ss. split; [reflexivity|]. split; [reflexivity|]. split; [|exact F].
        exists [], b. split; [reflexivity|]. split; [constructor|]. split; [lia|]. cbn [fold_left]. rewrite Z.mod_small by lia. lia. }
    destruct acc as [a0|]; cbn iota in *; [apply G, H|]. destruct (G 0 H) as (a & t & e & ss & -> & -> & A & F). exists (e :: ss). split; [reflexivity|]. constructor; assumption.
Qed.
Lemma octets_arcs_step a e : forall a0 rest l, arc_from a0 a e -> octets_arcs None rest = Ok l -> octets_arcs (Some a0) (e ++ rest) = Ok (a :: l).
Proof.
  induction e as [|b e IH]; intros a0 rest l (hi & lo & E & F & HL & HA) H; [destruct hi; discriminate|]. pose proof (ord_range b) as RB. cbn [app octets_arcs].
  destruct hi as [|c hi]; cbn [app] in E; injection E as -> ->.
  - replace (128 <=? ord lo) with false by lia. cbn [app]. rewrite H. cbn [bind]. rewrite HA. cbn [fold_left]. rewrite Z.mod_small by lia. do 2 f_equal. lia.
  - inversion F as [|? ? Hc F']; subst. replace (128 <=? ord c) with true by lia. apply IH; [|exact H]. exists hi, lo. split; [reflexivity|]. split; [exact F'|]. split; [exact HL|].
    cbn [fold_left]. rewrite high_mod by lia. do 2 f_equal. lia.
Qed.
Lemma octets_arcs_start a e rest : octets_arcs (Some 0) (e ++ rest) = Ok a -> e <> [] -> octets_arcs None (e ++ rest) = Ok a.
Proof. destruct e as [|b e]; [contradiction|]. intros H _. exact H. Qed.
Lemma octets_arcs_complete l ss : Forall2 ber_arc l ss -> octets_arcs None (concat ss) = Ok l.
Proof.
  induction 1 as [|a e l ss A F IH]; [reflexivity|]. cbn [concat]. apply octets_arcs_start; [apply octets_arcs_step; [exact A | exact IH]|].
  destruct A as (hi & lo & -> & _). destruct hi; discriminate.
Qed.
Lemma ber_arc_nonneg a s : ber_arc a s -> 0 <= a.
Proof.
  intros (hi & lo & -> & _ & _ & ->). assert (G : forall s a0, 0 <= a0 -> 0 <= fold_left (fun a b => 128 * a + ord b mod 128) s a0).
  { induction s as [|b s IH]; intros a0 H; cbn [fold_left]; [exact H|]. apply IH. pose proof (Z.mod_pos_bound (ord b) 128 ltac:(lia)). lia. }
  apply G. lia.
Qed.

Lemma octets_oid_iff s arcs : octets_oid s = Ok arcs <->
  exists a b n t ss, arcs = a :: b :: t /\ s = concat ss /\ Forall2 ber_arc (n :: t) ss /\ n = 40 * a + b /\ 0 <= a <= 2 /\ 0 <= b /\ (a < 2 -> b < 40).
Proof.
  unfold octets_oid. split.
  - intros H. apply bind_Ok in H as (l & HL & H). destruct l as [|n t]; [discriminate|]. apply Ok_inj in H as <-. destruct (octets_arcs_sound _ _ _ HL) as (ss & -> & F).
    assert (0 <= n) by (inversion F; subst; eapply ber_arc_nonneg; eassumption).
    destruct (n <? 40) eqn:E1; [|destruct (n <? 80) eqn:E2]; eexists _, _, n, t, ss; (split; [reflexivity|]; split; [reflexivity|]; split; [exact F|]; lia).
  - intros (a & b & n & t & ss & -> & -> & F & -> & HA & HB & HC). rewrite (octets_arcs_complete _ _ F). cbn [bind].
    assert (a = 0 \/ a = 1 \/ a = 2) as [->|[->| ->]] by lia.
    + replace (40 * 0 + b <? 40) with true by lia. replace (40 * 0 + b) with b by lia. reflexivity.
    + replace (40 * 1 + b <? 40) with false by lia. replace (40 * 1 + b <? 80) with true by lia. replace (40 * 1 + b - 40) with b by lia. reflexivity.
    + replace (40 * 2 + b <? 40) with false by lia. replace (40 * 2 + b <? 80) with false by lia. replace (40 * 2 + b - 80) with b by lia. reflexivity.
Qed.

(** One step of the decoder. *)
Lemma decode_step f tag rest : decode_fuel (S f) (tag :: rest)
  = let* p := decode_length rest in
    let '(n, rest) := p in
    if len rest <? n then Raise PyAsn1Error
    else let body := slice_to rest n in let tail := slice_from rest n in
     if beqb tag x02 then let* z := octets_int body in Ok (AInt z, tail)
     else if beqb tag x03 then let* b := octets_bits body in Ok (ABits b, tail)
     else if beqb tag x04 then Ok (AOctet body, tail)
     else if beqb tag x05 then match body with [] => Ok (ANull, tail) | _ => Raise PyAsn1Error end
     else if beqb tag x06 then let* a := octets_oid body in Ok (AOid a, tail)
     else if beqb tag x30 then let* l := decode_items f f body in Ok (ASeq l, tail)
     else Raise PyAsn1Error.
Proof. reflexivity. Qed.
Lemma ber_length_nonneg n l : ber_length n l -> 0 <= n.
Proof.
  intros (b & t & _ & [(_ & _ & ->)|(_ & _ & ->)]); [pose proof (ord_range b); lia|]. rewrite number_val. apply be_val_bound.
Qed.

Lemma decode_sound f : forall s v rest, decode_fuel f s = Ok (v, rest) -> exists e, s = e ++ rest /\ ber v e.
Proof.
  induction f as [|f IH]; intros s v rest H; [discriminate|]. destruct s as [|tag s]; [discriminate|]. rewrite decode_step in H.
  apply bind_Ok in H as ([n r] & HL & H). apply decode_length_iff in HL as (l & -> & HL). destruct (len r <? n) eqn:EN; [discriminate|]. cbv zeta in H.
  pose proof (ber_length_nonneg _ _ HL) as Hn. pose proof (slice_to_from r n) as ER. assert (LB : len (slice_to r n) = n) by (apply len_slice_to; lia).
  revert LB ER H. generalize (slice_to r n) as body, (slice_from r n) as tail. intros body tail LB ER H. subst r n.
  assert (DONE : forall v', ber v' (tag :: l ++ body) -> Ok (v', tail) = Ok (v, rest) -> exists e, tag :: l ++ body ++ tail = e ++ rest /\ ber v e).
  { intros v' HB HO. apply Ok_inj in HO. apply pair_inj in HO as [<- <-]. exists (tag :: l ++ body). split; [cbn [app]; rewrite <- app_assoc; reflexivity | exact HB]. }
  destruct (beqb tag x02) eqn:T1; [|destruct (beqb tag x03) eqn:T2; [|destruct (beqb tag x04) eqn:T3; [|destruct (beqb tag x05) eqn:T4; [|destruct (beqb tag x06) eqn:T5; [|destruct (beqb tag x30) eqn:T6; [|discriminate]]]]]];
    repeat match goal with T : beqb tag _ = true |- _ => apply beqb_eq in T; subst tag end.
  - apply bind_Ok in H as (z & HZ & H). apply octets_int_iff in HZ. apply (DONE (AInt z)); [constructor; assumption | exact H].
  - apply bind_Ok in H as (z & HZ & H). apply octets_bits_iff in HZ. apply (DONE (ABits z)); [constructor; assumption | exact H].
  - apply (DONE (AOctet body)); [constructor; assumption | exact H].
  - destruct body; [|discriminate]. apply (DONE ANull); [rewrite app_nil_r; constructor; exact HL | exact H].
  - apply bind_Ok in H as (z & HZ & H). apply octets_oid_iff in HZ as (a & b & n & t & ss & -> & -> & F & HN). eapply DONE; [|exact H]. econstructor; try exact F; try apply HN. exact HL.
  - apply bind_Ok in H as (z & HZ & H).
    assert (exists ss, body = concat ss /\ Forall2 ber z ss) as (ss & -> & F).
    { revert HZ. clear - IH. generalize f at 2 as g. intros g. revert body z. induction g as [|g IHg]; intros [|c b] z HZ; try discriminate HZ.
      - apply Ok_inj in HZ as <-. exists []. split; [reflexivity | constructor].
      - apply Ok_inj in HZ as <-. exists []. split; [reflexivity | constructor].
      - rewrite decode_items_S in HZ. apply bind_Ok in HZ as ([v r] & HV & HZ). apply bind_Ok in HZ as (vs & HS & HZ). apply Ok_inj in HZ as <-. cbn [fst snd] in *.
        apply IH in HV as (e & -> & HB). apply IHg in HS as (ss & -> & F). exists (e :: ss). split; [reflexivity | constructor; assumption]. }
    apply (DONE (ASeq z)); [constructor; assumption | exact H].
Qed.

Lemma ber_cons v e : ber v e -> exists b t, e = b :: t.
Proof. intros H. inversion H; subst; eexists _, _; reflexivity. Qed.
Lemma decode_length_app n l body rest : n = len body -> ber_length n l -> decode_length ((l ++ body) ++ rest) = Ok (n, body ++ rest).
Proof. intros -> H. apply decode_length_iff. exists l. split; [rewrite app_assoc; reflexivity | exact H]. Qed.
Lemma ber_length_length n l : ber_length n l -> (1 <= List.length l)%nat.
Proof. intros (b & t & -> & _). cbn. lia. Qed.

Lemma decode_complete n : forall v e f rest, (List.length e <= n)%nat -> ber v e -> (List.length e <= f)%nat -> decode_fuel f (e ++ rest) = Ok (v, rest).
Proof.
  induction n as [|n IH]; intros v e f rest Hn HB Hf; [destruct (ber_cons _ _ HB) as (b & t & ->); cbn in Hn; lia|].
  assert (STEP : forall tag l body, e = tag :: l ++ body -> ber_length (len body) l ->
    exists f', f = S f' /\ (List.length body <= n)%nat /\ (List.length body <= f')%nat /\ decode_fuel f (e ++ rest) =
     if beqb tag x02 then let* z := octets_int body in Ok (AInt z, rest)
     else if beqb tag x03 then let* b := octets_bits body in Ok (ABits b, rest)
     else if beqb tag x04 then Ok (AOctet body, rest)
     else if beqb tag x05 then match body with [] => Ok (ANull, rest) | _ => Raise PyAsn1Error end
     else if beqb tag x06 then let* a := octets_oid body in Ok (AOid a, rest)
     else if beqb tag x30 then let* l := decode_items f' f' body in Ok (ASeq l, rest)
     else Raise PyAsn1Error).
  { intros tag l body -> HL. pose proof (ber_length_length _ _ HL). cbn [List.length] in Hf, Hn. rewrite app_length in Hf, Hn. destruct f as [|f']; [lia|]. exists f'. split; [reflexivity|]. split; [lia|]. split; [lia|].
    cbn [app]. rewrite decode_step, (decode_length_app (len body)) by (reflexivity || exact HL). cbn [bind]. rewrite len_app. pose proof (len_nonneg rest). replace (len body + len rest <? len body) with false by lia.
    cbv zeta. rewrite slice_to_app, slice_from_app by reflexivity. reflexivity. }
  inversion HB as [z l s HI HL|bits l s HI HL|s l HL|l HL|a b m arcs ss l F HM HA HB' HC HL|vs ss l F HL]; subst v e.
  - destruct (STEP x02 l s eq_refl HL) as (f' & -> & _ & _ & E). rewrite E. change (beqb x02 x02) with true. cbn iota. apply octets_int_iff in HI. rewrite HI. reflexivity.
  - destruct (STEP x03 l s eq_refl HL) as (f' & -> & _ & _ & E). rewrite E. cbn [beqb]. change (beqb x03 x02) with false. change (beqb x03 x03) with true. cbn iota. apply octets_bits_iff in HI. rewrite HI. reflexivity.
  - destruct (STEP x04 l s eq_refl HL) as (f' & -> & _ & _ & E). rewrite E. reflexivity.
  - assert (E0 : x05 :: l = x05 :: l ++ []) by (rewrite app_nil_r; reflexivity). destruct (STEP x05 l [] E0 HL) as (f' & -> & _ & _ & E). rewrite E. reflexivity.
  - destruct (STEP x06 l (concat ss) eq_refl HL) as (f' & -> & _ & _ & E). rewrite E. change (beqb x06 x06) with true. change (beqb x06 x02) with false. change (beqb x06 x03) with false. change (beqb x06 x04) with false. change (beqb x06 x05) with false. cbn iota.
    assert (EO : octets_oid (concat ss) = Ok (a :: b :: arcs)) by (apply octets_oid_iff; exists a, b, m, arcs, ss; repeat (split; [first [reflexivity | assumption]|]); assumption).
    rewrite EO. reflexivity.
  - destruct (STEP x30 l (concat ss) eq_refl HL) as (f' & -> & L1 & L2 & E). rewrite E. change (beqb x30 x30) with true. change (beqb x30 x02) with false. change (beqb x30 x03) with false. change (beqb x30 x04) with false. change (beqb x30 x05) with false. change (beqb x30 x06) with false. cbn iota.
    assert (EI : forall g, (List.length (concat ss) <= g)%nat -> decode_items f' g (concat ss) = Ok vs).
    { clear - IH F L1 L2. induction F as [|v e vs ss HB F IHF]; intros g Hg; [destruct g; reflexivity|]. cbn [concat] in *. rewrite app_length in *.
      destruct (ber_cons _ _ HB) as (b & t & ->). cbn [List.length app] in *. destruct g as [|g]; [lia|]. rewrite decode_items_S. change (b :: t ++ concat ss) with ((b :: t) ++ concat ss).
      rewrite (IH v (b :: t)) by (assumption || (cbn [List.length]; lia)). cbn [bind fst snd]. rewrite IHF by lia. reflexivity. }
    rewrite EI by exact L2. reflexivity.
Qed.

Theorem C63_decoder : forall s v rest, decode s = Ok (v, rest) <-> exists e, s = e ++ rest /\ ber v e.
Proof.
  intros s v rest. unfold decode. split; [apply decode_sound|]. intros (e & -> & H). apply (decode_complete (List.length e)); [lia | exact H | rewrite app_length; lia].
Qed.
Print Assumptions C63_decoder.

(** No byte string starts with two encodings. *)
Theorem C63_unambiguous : forall v v' e e' r r', ber v e -> ber v' e' -> e ++ r = e' ++ r' -> v = v' /\ e = e' /\ r = r'.
Proof.
  intros v v' e e' r r' H H' E. assert (D : decode (e ++ r) = Ok (v, r)) by (apply C63_decoder; exists e; split; [reflexivity | exact H]).
  assert (D' : decode (e ++ r) = Ok (v', r')) by (apply C63_decoder; exists e'; split; [exact E | exact H']). rewrite D in D'. apply Ok_inj in D'. apply pair_inj in D' as [-> ->].
  split; [reflexivity|]. split; [apply app_inv_tail in E; exact E | reflexivity].
Qed.
Print Assumptions C63_unambiguous.

(** What is written is read: the distinguished encodings are among the accepted ones. *)
Theorem C63_der_is_accepted : forall v s, asn1_ok v -> encode v = Ok s -> ber v s.
Proof.
  intros v s OK H. destruct (proj1 (C63_decoder s v [])) as (e & E & B); [apply decode_encode'; assumption|]. rewrite app_nil_r in E. subst e. exact B.
Qed.
Print Assumptions C63_der_is_accepted.

(** ** C63: the accepted key texts, in terms of octets *)

(** The octets of a private key, RFC 5208 around RFC 8017 A.1.2 or RFC 3279 2.3.2.  Other octets may
    follow the inner structure, other members the last one needed. *)
Inductive private_key : str -> params -> Prop :=
| PrivateRsa e alg key junk n x d p q dp dq invq more :
    ber (ASeq [AInt 0; ASeq [AOid [1; 2; 840; 113549; 1; 1; 1]; alg]; AOctet (key ++ junk)]) e ->
    ber (ASeq (AInt 0 :: AInt n :: AInt x :: AInt d :: AInt p :: AInt q :: AInt dp :: AInt dq :: AInt invq :: more)) key ->
    private_key e [("n", n); ("e", x); ("d", d); ("p", p); ("q", q); ("dp", dp); ("dq", dq); ("invq", invq)]%string
| PrivateDsa e key junk p q g x more :
    ber (ASeq [AInt 0; ASeq [AOid [1; 2; 840; 10040; 4; 1]; ASeq (AInt p :: AInt q :: AInt g :: more)]; AOctet (key ++ junk)]) e ->
    ber (AInt x) key ->
    private_key e [("p", p); ("q", q); ("g", g); ("x", x)]%string.
(** The octets of a public key, RFC 5280 around RFC 8017 A.1.1 or RFC 3279 2.3.2.  A bit string
    whose length is no multiple of eight is filled up on the left. *)
Definition left_filled (bits octets : str) : Prop := exists z, 0 <= z < 8 /\ flat_map octet_bits octets = rep z "0"%byte ++ bits.
Inductive public_key_text : str -> params -> Prop :=
| PublicRsa e alg bits key junk n x :
    ber (ASeq [ASeq [AOid [1; 2; 840; 113549; 1; 1; 1]; alg]; ABits bits]) e -> left_filled bits (key ++ junk) ->
    ber (ASeq [AInt n; AInt x]) key ->
    public_key_text e [("n", n); ("e", x)]%string
| PublicDsa e bits key junk p q g y more :
    ber (ASeq [ASeq [AOid [1; 2; 840; 10040; 4; 1]; ASeq (AInt p :: AInt q :: AInt g :: map AInt more)]; ABits bits]) e -> left_filled bits (key ++ junk) ->
    ber (AInt y) key ->
    public_key_text e [("p", p); ("q", q); ("g", g); ("y", y)]%string.

Theorem C63_private_texts : forall s d, ParsePkcs8 s = Ok d <-> exists e junk, Base64WSDecode s = Ok (e ++ junk) /\ private_key e d.
Proof.
  intros s d. rewrite C63_pkcs8_accepted. split.
  - intros (raw & v & rest & HR & HV & HP). apply C63_decoder in HV as (e & -> & HB). exists e, rest. split; [exact HR|].
    destruct HP as [alg key krest n x d p q dp dq invq more HD|key krest p q g x more HD]; apply C63_decoder in HD as (k & -> & HK).
    + eapply PrivateRsa; [exact HB | exact HK].
    + eapply PrivateDsa; [exact HB | exact HK].
  - intros (e & junk & HR & HP). destruct HP as [e alg key kj n x d p q dp dq invq more HB HK|e key kj p q g x more HB HK]; eexists _, _, junk; (split; [exact HR|]); (split; [apply C63_decoder; exists e; split; [reflexivity | exact HB]|]).
    + apply (Pkcs8Rsa alg (key ++ kj) kj n x d p q dp dq invq more). apply C63_decoder. exists key. split; [reflexivity | exact HK].
    + apply (Pkcs8Dsa (key ++ kj) kj p q g x more). apply C63_decoder. exists key. split; [reflexivity | exact HK].
Qed.
Print Assumptions C63_private_texts.

(** Bits and octets. *)
Definition binary (s : str) : Prop := Forall (fun c => c = "0"%byte \/ c = "1"%byte) s.
Lemma octet_of_bits l : binary l -> len l = 8 -> exists b, octet_bits b = l.
Proof.
  intros F L. assert (N : List.length l = 8%nat) by (unfold len in L; lia). clear L.
  destruct l as [|a [|b [|c [|d [|e [|f [|g [|h [|? ?]]]]]]]]]; try discriminate N. clear N.
  assert (G : forall x, In x [a; b; c; d; e; f; g; h] -> x = "0"%byte \/ x = "1"%byte) by (apply Forall_forall; exact F).
  assert (V : exists v : Z, 0 <= v < 256 /\ octet_bits (chr v) = [a; b; c; d; e; f; g; h]).
  { pose (bv := fun x : byte => if beqb x "1"%byte then 1 else 0).
    exists (128 * bv a + 64 * bv b + 32 * bv c + 16 * bv d + 8 * bv e + 4 * bv f + 2 * bv g + bv h).
    destruct (G a ltac:(cbn; tauto)) as [->| ->], (G b ltac:(cbn; tauto)) as [->| ->], (G c ltac:(cbn; tauto)) as [->| ->], (G d ltac:(cbn; tauto)) as [->| ->],
      (G e ltac:(cbn; tauto)) as [->| ->], (G f ltac:(cbn; tauto)) as [->| ->], (G g ltac:(cbn; tauto)) as [->| ->], (G h ltac:(cbn; tauto)) as [->| ->]; (split; [vm_compute; split; [discriminate | reflexivity] | vm_compute; reflexivity]). }
  destruct V as (v & _ & E). exists (chr v). exact E.
Qed.
Lemma octets_of_bits n : forall l, binary l -> len l = 8 * Z.of_nat n -> exists k, flat_map octet_bits k = l.
Proof.
  induction n as [|n IH]; intros l F L.
  - assert (l = []) as -> by (apply len_0_nil; lia). exists []. reflexivity.
  - pose proof (slice_to_from l 8) as E. assert (L1 : len (slice_to l 8) = 8) by (apply len_slice_to; lia). assert (L2 : len (slice_from l 8) = 8 * Z.of_nat n) by (rewrite len_slice_from; lia).
    unfold binary in F. rewrite <- E in F. apply Forall_app in F as [F1 F2]. destruct (octet_of_bits _ F1 L1) as (b & HB). destruct (IH _ F2 L2) as (k & HK). exists (b :: k). cbn [flat_map]. rewrite HB, HK. exact E.
Qed.
Lemma PadByte_fill bits : exists z, 0 <= z < 8 /\ PadByte bits = rep z "0"%byte ++ bits /\ (len (PadByte bits)) mod 8 = 0.
Proof.
  unfold PadByte. cbv zeta. exists ((8 - len bits mod 8) mod 8). pose proof (Z.mod_pos_bound (8 - len bits mod 8) 8 ltac:(lia)) as B. split; [exact B|]. split; [reflexivity|].
  rewrite len_app, len_rep by lia. rewrite Zplus_mod_idemp_l. replace (8 - len bits mod 8 + len bits) with ((len bits - len bits mod 8) + 1 * 8) by lia. rewrite Z.mod_add by lia.
  rewrite Zminus_mod_idemp_r, Z.sub_diag. reflexivity.
Qed.
Lemma rep_binary z : binary (rep z "0"%byte).
Proof. unfold binary, rep. apply Forall_forall. intros c H. apply repeat_spec in H. left. exact H. Qed.
Lemma PadByte_once s : len s mod 8 = 0 -> PadByte s = s.
Proof. intros H. unfold PadByte. cbv zeta. rewrite H. reflexivity. Qed.
Lemma BinToBytes_pad bits : BinToBytes bits = BinToBytes (PadByte bits).
Proof.
  destruct (PadByte_fill bits) as (z & _ & _ & HM). unfold BinToBytes. rewrite (PadByte_once (PadByte bits) HM). reflexivity.
Qed.
Lemma BinToBytes_iff bits key : binary bits -> (BinToBytes bits = Ok key <-> left_filled bits key).
Proof.
  intros F. destruct (PadByte_fill bits) as (z & HZ & HP & HM). split.
  - intros H. exists z. split; [exact HZ|]. rewrite <- HP. rewrite BinToBytes_pad in H.
    assert (FB : binary (PadByte bits)) by (rewrite HP; apply Forall_app; split; [apply rep_binary | exact F]).
    destruct (octets_of_bits (Z.to_nat (len (PadByte bits) / 8)) (PadByte bits) FB) as (k & HK).
    { pose proof (len_nonneg (PadByte bits)). pose proof (Z.div_mod (len (PadByte bits)) 8 ltac:(lia)). rewrite Z2Nat.id by (apply Z.div_pos; lia). lia. }
    rewrite <- HK in H. rewrite <- BytesToBin_bits, BinToBytes_BytesToBin in H. apply Ok_inj in H as <-. exact HK.
  - intros (z' & HZ' & HK). rewrite BinToBytes_pad.
    assert (EZ : PadByte bits = rep z' "0"%byte ++ bits).
    { rewrite HP. do 2 f_equal. pose proof (f_equal len HK) as L. rewrite <- BytesToBin_bits, len_BytesToBin, len_app, len_rep in L by lia.
      rewrite HP, len_app, len_rep in HM by lia. apply Z.mod_divide in HM as (w & HW); lia. }
    rewrite EZ, <- HK, <- BytesToBin_bits. apply BinToBytes_BytesToBin.
Qed.
Lemma ber_bits_binary bits s : ber_bits bits s -> binary bits.
Proof.
  intros (u & t & junk & _ & _ & _ & E). assert (F : binary (bits ++ junk)).
  { rewrite <- E. clear E. induction t as [|b t IH]; [constructor|]. cbn [flat_map]. apply Forall_app. split; [|exact IH].
    unfold octet_bits. apply Forall_forall. intros c HC. apply in_map_iff in HC as (i & <- & _). unfold bit. destruct (Z.testbit (ord b) i); tauto. }
  apply Forall_app in F. apply F.
Qed.
Lemma ber_seq_bits v bits e : ber (ASeq [v; ABits bits]) e -> binary bits.
Proof.
  intros H. inversion H as [| | | | |vs ss l F HL]; subst. inversion F as [|? ? ? ? H1 F1]; subst. inversion F1 as [|? ? ? ? H2 F2]; subst. inversion H2; subst. eapply ber_bits_binary. eassumption.
Qed.

Theorem C63_public_texts : forall s d, ParseX509 s = Ok d <-> exists e junk, Base64WSDecode s = Ok (e ++ junk) /\ public_key_text e d.
Proof.
  intros s d. rewrite C63_x509_accepted. split.
  - intros (raw & v & rest & HR & HV & HP). apply C63_decoder in HV as (e & -> & HB). exists e, rest. split; [exact HR|].
    destruct HP as [alg bits key krest n x HBB HD|bits key krest p q g y more HBB HD]; apply C63_decoder in HD as (k & -> & HK); apply BinToBytes_iff in HBB; try (eapply ber_seq_bits; exact HB).
    + eapply PublicRsa; [exact HB | exact HBB | exact HK].
    + eapply PublicDsa; [exact HB | exact HBB | exact HK].
  - intros (e & junk & HR & HP). destruct HP as [e alg bits key kj n x HB HF HK|e bits key kj p q g y more HB HF HK]; apply BinToBytes_iff in HF; try (eapply ber_seq_bits; exact HB);
      eexists _, _, junk; (split; [exact HR|]); (split; [apply C63_decoder; exists e; split; [reflexivity | exact HB]|]).
    + apply (X509Rsa alg bits (key ++ kj) kj n x); [exact HF|]. apply C63_decoder. exists key. split; [reflexivity | exact HK].
    + apply (X509Dsa bits (key ++ kj) kj p q g y more); [exact HF|]. apply C63_decoder. exists key. split; [reflexivity | exact HK].
Qed.
Print Assumptions C63_public_texts.

(** ** C63: which error is raised for other key texts *)

Lemma decode_length_exn s e : decode_length s = Raise e -> e = PyAsn1Error.
Proof.
  destruct s as [|b t]; cbn [decode_length]; [congruence|]. destruct (ord b <? 128); [discriminate|]. cbv zeta. destruct (_ || _); [congruence | discriminate].
Qed.
Lemma octets_arcs_exn s : forall acc e, octets_arcs acc s = Raise e -> e = PyAsn1Error.
Proof.
  induction s as [|b s IH]; intros acc e H; cbn [octets_arcs] in H; [destruct acc; congruence|]. cbv zeta in H. destruct (128 <=? ord b); [apply (IH _ _ H)|].
  apply bind_Raise in H as [H|(r & _ & H)]; [apply (IH _ _ H) | discriminate].
Qed.
Lemma decode_fuel_exn f : forall s e, decode_fuel f s = Raise e -> e = PyAsn1Error.
Proof.
  induction f as [|f IH]; intros s e H; [apply Raise_inj in H; congruence|]. destruct s as [|tag s]; [apply Raise_inj in H; congruence|]. rewrite decode_step in H.
  apply bind_Raise in H as [H|([n r] & _ & H)]; [apply (decode_length_exn _ _ H)|]. destruct (len r <? n); [congruence|]. cbv zeta in H. revert H. generalize (slice_to r n) as body, (slice_from r n) as tail. intros body tail H.
  destruct (beqb tag x02); [|destruct (beqb tag x03); [|destruct (beqb tag x04); [|destruct (beqb tag x05); [|destruct (beqb tag x06); [|destruct (beqb tag x30); [|congruence]]]]]].
  - apply bind_Raise in H as [H|(z & _ & H)]; [|discriminate]. destruct body; [cbn in H; congruence | discriminate].
  - apply bind_Raise in H as [H|(z & _ & H)]; [|discriminate]. destruct body; cbn [octets_bits] in H; [congruence|]. destruct (_ || _); [congruence | discriminate].
  - discriminate.
  - destruct body; [discriminate | congruence].
  - apply bind_Raise in H as [H|(z & _ & H)]; [|discriminate]. unfold octets_oid in H. apply bind_Raise in H as [H|(l & _ & H)]; [apply (octets_arcs_exn _ _ _ H)|]. destruct l; [congruence | discriminate].
  - apply bind_Raise in H as [H|(z & _ & H)]; [|discriminate]. revert H. generalize f at 2 as g. intros g. revert body. induction g as [|g IHg]; intros [|c b] H; try discriminate H; [cbn in H; congruence|].
    rewrite decode_items_S in H. apply bind_Raise in H as [H|([v r'] & _ & H)]; [apply (IH _ _ H)|]. apply bind_Raise in H as [H|(vs & _ & H)]; [apply (IHg _ H) | discriminate].
Qed.
Lemma decode_exn s e : decode s = Raise e -> e = PyAsn1Error.
Proof. apply decode_fuel_exn. Qed.

(** The values that have no members: an empty sequence, and whatever else is empty. *)
Definition memberless (v : asn1) : Prop := v = ASeq [] \/ v = ANull \/ v = AOctet [] \/ v = ABits [] \/ v = AOid [].
Lemma sequence_outcomes v :
  (exists l, v = ASeq l /\ ParseASN1Sequence v = Ok l) \/ (memberless v /\ ParseASN1Sequence v = Ok []) \/
  ParseASN1Sequence v = Raise TypeError \/ ParseASN1Sequence v = Raise AttributeError.
Proof.
  assert (G : forall (w : asn1) k n, (forall i, getComponent w i = Raise AttributeError) -> mapM (fun i => getComponent w (Z.of_nat i)) (seq k (S n)) = Raise AttributeError).
  { intros w k n H. cbn [seq mapM]. rewrite H. reflexivity. }
  unfold memberless. destruct v as [z|b|o| |a|l].
  - right. right. left. reflexivity.
  - destruct b as [|c b]; [right; left; tauto|]. right. right. right. unfold ParseASN1Sequence. cbn [asn1_len bind]. replace (Z.to_nat (len (c :: b))) with (S (List.length b)) by (unfold len; cbn; lia). apply G. reflexivity.
  - destruct o as [|c b]; [right; left; tauto|]. right. right. right. unfold ParseASN1Sequence. cbn [asn1_len bind]. replace (Z.to_nat (len (c :: b))) with (S (List.length b)) by (unfold len; cbn; lia). apply G. reflexivity.
  - right. left. tauto.
  - destruct a as [|c b]; [right; left; tauto|]. right. right. right. unfold ParseASN1Sequence. cbn [asn1_len bind]. replace (Z.to_nat (len (c :: b))) with (S (List.length b)) by (unfold len; cbn; lia). apply G. reflexivity.
  - left. exists l. split; [reflexivity | apply ParseASN1Sequence_ASeq].
Qed.
Lemma sequence_exn v e : ParseASN1Sequence v = Raise e -> e = TypeError \/ e = AttributeError.
Proof. intros H. destruct (sequence_outcomes v) as [(l & _ & E)|[(_ & E)|[E|E]]]; rewrite E in H; try discriminate H; apply Raise_inj in H; subst e; tauto. Qed.
Lemma sequence_nil v : ParseASN1Sequence v = Ok [] -> memberless v.
Proof.
  intros H. destruct (sequence_outcomes v) as [(l & -> & E)|[(M & E)|[E|E]]]; rewrite E in H; try discriminate H; [apply Ok_inj in H as ->; left; reflexivity | exact M].
Qed.
Lemma memberless_sequence v : memberless v -> ParseASN1Sequence v = Ok [].
Proof. intros [->|[->|[->|[->| ->]]]]; reflexivity. Qed.
Lemma int_exn v e : asn1_int v = Raise e -> e = TypeError.
Proof. destruct v; cbn; congruence. Qed.
Lemma item_exn {A} (l : list A) i e : item l i = Raise e -> e = IndexError.
Proof. unfold item. destruct (nth_error l i); congruence. Qed.
Lemma unpack2_exn {A} (l : list A) e : unpack2 l = Raise e -> e = ValueError.
Proof. destruct l as [|a [|b [|]]]; cbn; congruence. Qed.
Lemma mapM_exn {A B} (f : A -> res B) l e : mapM f l = Raise e -> exists a, f a = Raise e.
Proof.
  induction l as [|a l IH]; cbn [mapM]; [discriminate|]. intros H. apply bind_Raise in H as [H|(b & _ & H)]; [eauto|]. apply bind_Raise in H as [H|(r & _ & H)]; [apply IH, H | discriminate].
Qed.
Lemma read_params_exn names l off e : read_params names l off = Raise e -> e = TypeError \/ e = IndexError.
Proof.
  intros H. apply mapM_exn in H as (i & H). apply bind_Raise in H as [H|(v & _ & H)]; [right; apply (item_exn _ _ _ H)|]. apply bind_Raise in H as [H|(z & _ & H)]; [left; apply (int_exn _ _ H) | discriminate].
Qed.
Lemma decode_octet_exn v e : decode_octet v = Raise e -> e = PyAsn1Error \/ e = TypeError.
Proof.
  destruct v; cbn [decode_octet]; intros H; try (apply Raise_inj in H; subst e; tauto). apply bind_Raise in H as [H|(p & _ & H)]; [left; apply (decode_exn _ _ H) | discriminate].
Qed.
Lemma b64d_exn s e : b64d s = Raise e -> e = Base64DecodingError.
Proof. intros H. unfold b64d, Base64WSDecode in H. apply (decode_stripped_exn _ _ H). Qed.

(** The private key structures the code itself refuses: not three members, a version other than 0
    in the structure or in the RSA key, an algorithm it does not know. *)
Definition is_sequence (v : asn1) (l : list asn1) : Prop := v = ASeq l \/ (l = [] /\ memberless v).
Inductive pkcs8_refused : asn1 -> Prop :=
| NotThree v l : is_sequence v l -> List.length l <> 3%nat -> pkcs8_refused v
| OtherVersion z a k : z <> 0 -> pkcs8_refused (ASeq [AInt z; a; k])
| OtherKeyVersion alg key junk z more : z <> 0 -> ber (ASeq (AInt z :: more)) key ->
    pkcs8_refused (ASeq [AInt 0; ASeq [AOid [1; 2; 840; 113549; 1; 1; 1]; alg]; AOctet (key ++ junk)])
| OtherAlgorithm oid alg v key junk : oid <> AOid [1; 2; 840; 113549; 1; 1; 1] -> oid <> AOid [1; 2; 840; 10040; 4; 1] -> ber v key ->
    pkcs8_refused (ASeq [AInt 0; ASeq [oid; alg]; AOctet (key ++ junk)]).
(** The public key structures the code itself refuses: not two members, or an algorithm it does
    not know. *)
Inductive x509_refused : asn1 -> Prop :=
| NotTwo v l : is_sequence v l -> List.length l <> 2%nat -> x509_refused v
| OtherPublicAlgorithm oid alg bits v key junk : oid <> AOid [1; 2; 840; 113549; 1; 1; 1] -> oid <> AOid [1; 2; 840; 10040; 4; 1] ->
    left_filled bits (key ++ junk) -> ber v key -> x509_refused (ASeq [ASeq [oid; alg]; ABits bits]).

Lemma sequence_is v l : ParseASN1Sequence v = Ok l <-> is_sequence v l.
Proof.
  split.
  - intros H. destruct (sequence_ok _ _ H) as [->| ->]; [left; reflexivity | right; split; [reflexivity | apply sequence_nil, H]].
  - intros [->|[-> M]]; [apply ParseASN1Sequence_ASeq | apply memberless_sequence, M].
Qed.
Lemma len_length_3 {A} (l : list A) n : (len l =? Z.of_nat n) = false <-> List.length l <> n.
Proof. unfold len. lia. Qed.
Lemma oid_no v arcs : oid_is v arcs = false <-> v <> AOid arcs.
Proof. pose proof (oid_ok_eq v arcs) as H. destruct (oid_is v arcs); split; try congruence; intros; [exfalso; apply H0, H; reflexivity|]. intros C. apply H in C. discriminate. Qed.

Theorem C63_private_refused : forall s, ParsePkcs8 s = Raise KeyczarError <->
  exists e junk v, Base64WSDecode s = Ok (e ++ junk) /\ ber v e /\ pkcs8_refused v.
Proof.
  intros s. unfold ParsePkcs8. split.
  - intros H. apply bind_Raise in H as [H|(raw & HR & H)]; [apply b64d_exn in H; discriminate|].
    apply bind_Raise in H as [H|([v rest] & HV & H)]; [apply decode_exn in H; discriminate|]. cbn [fst] in H. apply C63_decoder in HV as (e & -> & HB). exists e, rest, v. split; [exact HR|]. split; [exact HB|].
    apply bind_Raise in H as [H|(sq & HS & H)]; [apply sequence_exn in H as [H|H]; discriminate|]. apply sequence_is in HS. destruct (len sq =? 3) eqn:E3.
    2:{ apply (NotThree v sq HS). apply (len_length_3 sq 3). exact E3. }
    apply len3 in E3 as (a & b & c & ->). destruct HS as [->|[C _]]; [|discriminate C]. cbn [negb item nth_error bind] in H.
    apply bind_Raise in H as [H|(z & HZ & H)]; [apply int_exn in H; discriminate|]. apply int_ok in HZ. subst a. destruct (z =? 0) eqn:EZ; cbn [negb] in H.
    2:{ apply OtherVersion. lia. }
    apply Z.eqb_eq in EZ. subst z. apply bind_Raise in H as [H|(ids & HI & H)]; [apply sequence_exn in H as [H|H]; discriminate|].
    apply bind_Raise in H as [H|([oid alg] & HO & H)]; [apply unpack2_exn in H; discriminate|]. apply unpack2_ok in HO. cbn [fst snd] in *. subst ids. apply sequence_is in HI as [->|[C _]]; [|discriminate C].
    apply bind_Raise in H as [H|(key & HK & H)]; [apply decode_octet_exn in H as [H|H]; discriminate|]. destruct c as [|?|ks| | |]; try discriminate HK. cbn [decode_octet] in HK. apply bind_Ok in HK as ([kv krest] & HD & HK).
    apply Ok_inj in HK. cbn [fst] in HK. subst kv. apply C63_decoder in HD as (ke & -> & HKB).
    destruct (oid_is oid RSA_OID) eqn:E1.
    + apply oid_ok_eq in E1. subst oid. apply bind_Raise in H as [H|(kl & HL & H)]; [apply sequence_exn in H as [H|H]; discriminate|].
      apply bind_Raise in H as [H|(k0 & HI0 & H)]; [apply item_exn in H; discriminate|]. apply bind_Raise in H as [H|(z & HZ & H)]; [apply int_exn in H; discriminate|]. apply int_ok in HZ. subst k0.
      destruct kl as [|x kl]; [discriminate HI0|]. cbn [item nth_error] in HI0. apply Ok_inj in HI0. subst x. apply sequence_is in HL as [->|[C _]]; [|discriminate C].
      destruct (z =? 0) eqn:EZ; cbn [negb] in H; [apply read_params_exn in H as [H|H]; discriminate|]. eapply OtherKeyVersion; [|exact HKB]. lia.
    + destruct (oid_is oid DSA_OID) eqn:E2.
      * apply bind_Raise in H as [H|(al & _ & H)]; [apply sequence_exn in H as [H|H]; discriminate|]. apply bind_Raise in H as [H|(ps & _ & H)]; [apply read_params_exn in H as [H|H]; discriminate|].
        apply bind_Raise in H as [H|(x & _ & H)]; [apply int_exn in H; discriminate | discriminate].
      * apply oid_no in E1, E2. eapply OtherAlgorithm; eassumption.
  - intros (e & junk & v & HR & HB & HP). unfold b64d. rewrite HR. cbn [bind]. assert (D : decode (e ++ junk) = Ok (v, junk)) by (apply C63_decoder; exists e; split; [reflexivity | exact HB]). rewrite D. cbn [bind fst]. clear HB D HR.
    destruct HP as [v l HS HL|z a k HZ|alg key kj z more HZ HK|oid alg v key kj H1 H2 HK].
    + apply sequence_is in HS. rewrite HS. cbn [bind]. apply (len_length_3 l 3) in HL. change (Z.of_nat 3) with 3 in HL. rewrite HL. reflexivity.
    + rewrite ParseASN1Sequence_ASeq. cbn [bind item nth_error asn1_int]. change (negb (len _ =? 3)) with false. cbn iota. replace (z =? 0) with false by lia. reflexivity.
    + rewrite ParseASN1Sequence_ASeq. cbn [bind item nth_error asn1_int]. change (negb (len _ =? 3)) with false. change (negb (0 =? 0)) with false. cbn iota. rewrite ParseASN1Sequence_ASeq. cbn [bind unpack2 decode_octet fst snd].
      assert (D : decode (key ++ kj) = Ok (ASeq (AInt z :: more), kj)) by (apply C63_decoder; exists key; split; [reflexivity | exact HK]). rewrite D. cbn [bind fst]. change (oid_is _ RSA_OID) with true. cbn iota.
      rewrite ParseASN1Sequence_ASeq. cbn [bind item nth_error asn1_int]. replace (z =? 0) with false by lia. reflexivity.
    + rewrite ParseASN1Sequence_ASeq. cbn [bind item nth_error asn1_int]. change (negb (len _ =? 3)) with false. change (negb (0 =? 0)) with false. cbn iota. rewrite ParseASN1Sequence_ASeq. cbn [bind unpack2 decode_octet fst snd].
      assert (D : decode (key ++ kj) = Ok (v, kj)) by (apply C63_decoder; exists key; split; [reflexivity | exact HK]). rewrite D. cbn [bind fst]. apply oid_no in H1, H2. unfold RSA_OID, DSA_OID. rewrite H1, H2. reflexivity.
Qed.
Print Assumptions C63_private_refused.

Lemma BinToBytes_no_keyczar_error bits : BinToBytes bits <> Raise KeyczarError.
Proof.
  intros H. unfold BinToBytes in H. apply mapM_exn in H as (x & H). apply bind_Raise in H as [H|(v & _ & H)]; [|discriminate].
  unfold int_base2 in H. destruct x; [discriminate|]. revert H. generalize 0. generalize (b :: x) as y. induction y as [|c y IH]; intros acc H; cbn [int_base2_loop] in H; [discriminate|].
  destruct (beqb c "0"%byte); [apply (IH _ H)|]. destruct (beqb c "1"%byte); [apply (IH _ H) | discriminate].
Qed.

Theorem C63_public_refused : forall s, ParseX509 s = Raise KeyczarError <->
  exists e junk v, Base64WSDecode s = Ok (e ++ junk) /\ ber v e /\ x509_refused v.
Proof.
  intros s. unfold ParseX509. split.
  - intros H. apply bind_Raise in H as [H|(raw & HR & H)]; [apply b64d_exn in H; discriminate|].
    apply bind_Raise in H as [H|([v rest] & HV & H)]; [apply decode_exn in H; discriminate|]. cbn [fst] in H. apply C63_decoder in HV as (e & -> & HB). exists e, rest, v. split; [exact HR|]. split; [exact HB|].
    apply bind_Raise in H as [H|(sq & HS & H)]; [apply sequence_exn in H as [H|H]; discriminate|]. apply sequence_is in HS. destruct (len sq =? 2) eqn:E3.
    2:{ apply (NotTwo v sq HS). apply (len_length_3 sq 2). exact E3. }
    apply len2 in E3 as (a & b & ->). destruct HS as [->|[C _]]; [|discriminate C]. cbn [negb item nth_error bind] in H.
    apply bind_Raise in H as [H|(ids & HI & H)]; [apply sequence_exn in H as [H|H]; discriminate|].
    apply bind_Raise in H as [H|([oid alg] & HO & H)]; [apply unpack2_exn in H; discriminate|]. apply unpack2_ok in HO. cbn [fst snd] in *. subst ids. apply sequence_is in HI as [->|[C _]]; [|discriminate C].
    apply bind_Raise in H as [H|(kb & HK & H)]; [destruct b; cbn [bits_bytes] in H; try discriminate H; exfalso; apply (BinToBytes_no_keyczar_error _ H)|].
    destruct b as [|bits| | | |]; try discriminate HK. cbn [bits_bytes] in HK. apply BinToBytes_iff in HK; [|eapply ber_seq_bits; exact HB].
    apply bind_Raise in H as [H|([kv krest] & HD & H)]; [apply decode_exn in H; discriminate|]. cbn [fst] in H. apply C63_decoder in HD as (ke & -> & HKB).
    destruct (oid_is oid RSA_OID) eqn:E1.
    + apply bind_Raise in H as [H|(l & _ & H)]; [apply sequence_exn in H as [H|H]; discriminate|]. apply bind_Raise in H as [H|(zs & _ & H)]; [apply mapM_exn in H as (x & H); apply int_exn in H; discriminate|].
      apply bind_Raise in H as [H|(ne & _ & H)]; [apply unpack2_exn in H; discriminate | discriminate].
    + destruct (oid_is oid DSA_OID) eqn:E2.
      * apply bind_Raise in H as [H|(l & _ & H)]; [apply sequence_exn in H as [H|H]; discriminate|]. apply bind_Raise in H as [H|(zs & _ & H)]; [apply mapM_exn in H as (x & H); apply int_exn in H; discriminate|].
        apply bind_Raise in H as [H|(ps & _ & H)]; [apply mapM_exn in H as (x & H); apply bind_Raise in H as [H|(w & _ & H)]; [apply item_exn in H; discriminate | discriminate]|].
        apply bind_Raise in H as [H|(y & _ & H)]; [apply int_exn in H; discriminate | discriminate].
      * apply oid_no in E1, E2. eapply OtherPublicAlgorithm; eassumption.
  - intros (e & junk & v & HR & HB & HP). unfold b64d. rewrite HR. cbn [bind]. assert (D : decode (e ++ junk) = Ok (v, junk)) by (apply C63_decoder; exists e; split; [reflexivity | exact HB]). rewrite D. cbn [bind fst]. clear D HR.
    destruct HP as [v l HS HL|oid alg bits v key kj H1 H2 HF HK].
    + apply sequence_is in HS. rewrite HS. cbn [bind]. apply (len_length_3 l 2) in HL. change (Z.of_nat 2) with 2 in HL. rewrite HL. reflexivity.
    + rewrite ParseASN1Sequence_ASeq. cbn [bind item nth_error]. change (negb (len _ =? 2)) with false. cbn iota. rewrite ParseASN1Sequence_ASeq. cbn [bind unpack2 bits_bytes fst snd].
      apply BinToBytes_iff in HF; [|eapply ber_seq_bits; exact HB]. rewrite HF. cbn [bind].
      assert (D : decode (key ++ kj) = Ok (v, kj)) by (apply C63_decoder; exists key; split; [reflexivity | exact HK]). rewrite D. cbn [bind fst]. apply oid_no in H1, H2. unfold RSA_OID, DSA_OID. rewrite H1, H2. reflexivity.
Qed.
Print Assumptions C63_public_refused.

(** ** C13: the accepted encodings of a DSA signature *)

Theorem C13_accepted : forall sig r s, ParseDsaSig sig = Ok (r, s) <-> exists e junk, sig = e ++ junk /\ ber (ASeq [AInt r; AInt s]) e.
Proof.
  intros sig r s. unfold ParseDsaSig. split.
  - intros H. apply bind_Ok in H as ([v rest] & HV & H). cbn [fst] in H. apply bind_Ok in H as (n & HN & H). destruct (negb (n =? 2)) eqn:E; [discriminate|].
    apply bind_Ok in H as (c0 & H0 & H). apply bind_Ok in H as (r' & HR & H). apply bind_Ok in H as (c1 & H1 & H). apply bind_Ok in H as (s' & HS & H). apply Ok_inj in H. apply pair_inj in H as [-> ->].
    apply int_ok in HR, HS. subst c0 c1. destruct v as [|?|?| |?|l]; try discriminate H0. cbn [asn1_len] in HN. apply Ok_inj in HN. subst n. assert (E2 : (len l =? 2) = true) by lia. apply len2 in E2 as (a & b & ->).
    cbn in H0, H1. apply Ok_inj in H0, H1. subst a b. apply C63_decoder in HV as (e & -> & HB). exists e, rest. split; [reflexivity | exact HB].
  - intros (e & junk & -> & HB). assert (D : decode (e ++ junk) = Ok (ASeq [AInt r; AInt s], junk)) by (apply C63_decoder; exists e; split; [reflexivity | exact HB]). rewrite D. reflexivity.
Qed.
Print Assumptions C13_accepted.

(** So a DSA signature does not stand alone: other bytes are accepted in its place. *)
Theorem C13_other_encodings : forall k msg r s e e' junk, ber (ASeq [AInt r; AInt s]) e -> ber (ASeq [AInt r; AInt s]) e' ->
  DsaPublicKey_Verify k msg (e' ++ junk) = DsaPublicKey_Verify k msg e.
Proof.
  intros k msg r s e e' junk H H'. unfold DsaPublicKey_Verify. assert (P : ParseDsaSig e = Ok (r, s)) by (apply C13_accepted; exists e, []; split; [rewrite app_nil_r; reflexivity | exact H]).
  assert (P' : ParseDsaSig (e' ++ junk) = Ok (r, s)) by (apply C13_accepted; exists e', junk; split; [reflexivity | exact H']). rewrite P, P'. reflexivity.
Qed.
Print Assumptions C13_other_encodings.

(** ** Cases *)

(** The same two numbers, with the shortest lengths and with long ones and a leading zero. *)
Definition sig_short : str := [x30; x06; x02; x01; x05; x02; x01; xff].
Definition sig_long : str := [x30; x81; x0a; x02; x82; x00; x02; x00; x05; x02; x02; xff; xff].
Lemma sig_short_ber : ber (ASeq [AInt 5; AInt (-1)]) sig_short.
Proof. destruct (proj1 (C63_decoder sig_short (ASeq [AInt 5; AInt (-1)]) [])) as (e & E & H); [vm_compute; reflexivity|]. rewrite app_nil_r in E. subst e. exact H. Qed.
Lemma sig_long_ber : ber (ASeq [AInt 5; AInt (-1)]) sig_long.
Proof. destruct (proj1 (C63_decoder sig_long (ASeq [AInt 5; AInt (-1)]) [])) as (e & E & H); [vm_compute; reflexivity|]. rewrite app_nil_r in E. subst e. exact H. Qed.
Example C13_encodings_case : sig_short <> sig_long /\ MakeDsaSig 5 (-1) = Ok sig_short /\ ParseDsaSig (sig_long ++ bs "!") = Ok (5, -1) /\
  (forall k msg, DsaPublicKey_Verify k msg (sig_long ++ bs "!") = DsaPublicKey_Verify k msg sig_short).
Proof.
  split; [discriminate|]. split; [vm_compute; reflexivity|]. split; [apply C13_accepted; exists sig_long, (bs "!"); split; [reflexivity | exact sig_long_ber]|].
  intros k msg. apply (C13_other_encodings k msg 5 (-1)); [exact sig_short_ber | exact sig_long_ber].
Qed.

(** A public key of another algorithm, of elliptic curves. *)
Definition ec_key : res str := encode (ASeq [ASeq [AOid [1; 2; 840; 10045; 2; 1]; ANull]; ABits (BytesToBin sig_short)]).
Example C63_refused_case : exists raw, ec_key = Ok raw /\ ParseX509 (Base64WSEncode raw) = Raise KeyczarError.
Proof.
  destruct ec_key as [raw|] eqn:E; [|vm_compute in E; discriminate E]. exists raw. split; [reflexivity|]. apply C63_public_refused. exists raw, [], (ASeq [ASeq [AOid [1; 2; 840; 10045; 2; 1]; ANull]; ABits (BytesToBin sig_short)]).
  split; [rewrite app_nil_r; apply C01_base64_roundtrip|]. split.
  - apply C63_der_is_accepted; [|exact E]. cbn [asn1_ok]. repeat split; try lia; try (repeat constructor; lia). exists sig_short. reflexivity.
  - apply (OtherPublicAlgorithm _ _ _ (ASeq [AInt 5; AInt (-1)]) sig_short []); [discriminate | discriminate | | exact sig_short_ber].
    exists 0. split; [lia|]. rewrite app_nil_r, BytesToBin_bits. reflexivity.
Qed.
Example C63_private_refused_case : ParsePkcs8 (bs "MAA") = Raise KeyczarError.
Proof. apply C63_private_refused. exists [x30; x00], [], (ASeq []). split; [vm_compute; reflexivity|]. split; [apply (BerSeq [] [] [x00]); [constructor|]; exists x00, []; split; [reflexivity|]; left; repeat split|]. apply (NotThree _ []); [left; reflexivity | discriminate]. Qed.
