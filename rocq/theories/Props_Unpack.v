(** * Props_Unpack: what UnpackMultipleByteArrays does with any text (C08). *)
From Coq Require Import Strings.String.
From Coq Require Import List ZArith NArith Bool Lia ZifyBool ZifyNat ZifyN.
From Coq.Init Require Import Byte.
From Verif Require Import PyBase PyFacts Sha1 Util UtilFacts UtilFacts2.
Import ListNotations.
Local Open Scope Z_scope.
Ltac Zify.zify_post_hook ::= idtac.

(** ** Specification *)

(** The signed number in four bytes, most significant first. *)
Definition signed32 (a b c d : byte) (n : Z) : Prop :=
  - 2 ^ 31 <= n < 2 ^ 31 /\ exists m, n = ord a * 2 ^ 24 + ord b * 2 ^ 16 + ord c * 2 ^ 8 + ord d - m * 2 ^ 32.

(** The number at a position; as everywhere in Python, a negative one counts from the end (and four
    bytes from -4 on cannot be written in this way). *)
Definition number_at (data : str) (p n : Z) : Prop :=
  exists u a b c d v, data = u ++ [a; b; c; d] ++ v /\ signed32 a b c d n /\ (p = len u \/ p = len u - len data /\ p < -4).

(** The arrays read one after the other, each with the position of its length, from one position to
    another; lengths may be negative. *)
Inductive reads_arrays (data : str) : Z -> list (Z * str) -> Z -> Prop :=
| at_once p : reads_arrays data p [] p
| one_more p n l q : p < len data -> number_at data p n -> reads_arrays data (p + 4 + n) l q ->
    reads_arrays data p ((p, slice data (p + 4) (p + 4 + n)) :: l) q.

(** As many rounds as there are positions, and one. *)
Definition rounds (data : str) : nat := S (2 * List.length data).

(** ** Proofs *)

Lemma signed_be a b c d n : signed32 a b c d n <-> struct_unpack_i [a; b; c; d] = Ok n.
Proof.
  unfold signed32, struct_unpack_i, of_be32. pose proof (ord_range a). pose proof (ord_range b). pose proof (ord_range c). pose proof (ord_range d).
  change (2 ^ 31) with 2147483648. change (2 ^ 32) with 4294967296. change (2 ^ 24) with 16777216. change (2 ^ 16) with 65536. change (2 ^ 8) with 256.
  set (u := ord a * 16777216 + ord b * 65536 + ord c * 256 + ord d). assert (U : 0 <= u < 4294967296) by (unfold u; lia). clearbody u. split.
  - intros [R (m & E)]. f_equal. destruct (u <? 2147483648) eqn:L; [assert (m = 0) by nia | assert (m = 1) by nia]; lia.
  - intros E. apply Ok_inj in E. destruct (u <? 2147483648) eqn:L; (split; [lia|]); [exists 0 | exists 1]; lia.
Qed.

Lemma number_slice data p n : struct_unpack_i (slice data p (p + 4)) = Ok n <-> number_at data p n.
Proof.
  split.
  - intros H. assert (L : exists a b c d, slice data p (p + 4) = [a; b; c; d] /\ signed32 a b c d n).
    { destruct (slice data p (p + 4)) as [|a [|b [|c [|d [|]]]]]; try discriminate. exists a, b, c, d. split; [reflexivity | apply signed_be, H]. }
    destruct L as (a & b & c & d & ES & HS). clear H. unfold slice in ES.
    set (x := clamp (len data) p) in *. set (y := clamp (len data) (p + 4)) in *.
    assert (X : 0 <= x <= len data) by (unfold x, clamp; pose proof (len_nonneg data); destruct (p <? 0) eqn:?; lia).
    assert (EL : len (firstn (Z.to_nat (y - x)) (skipn (Z.to_nat x) data)) = 4) by (rewrite ES; reflexivity).
    unfold len in EL, X. rewrite firstn_length, skipn_length in EL.
    exists (firstn (Z.to_nat x) data), a, b, c, d, (skipn (Z.to_nat (y - x)) (skipn (Z.to_nat x) data)).
    split; [rewrite <- ES, firstn_skipn, firstn_skipn; reflexivity|]. split; [exact HS|].
    assert (EU : len (firstn (Z.to_nat x) data) = x) by (unfold len; rewrite firstn_length; lia). rewrite EU.
    assert (Dx : x = clamp (len data) p) by reflexivity. assert (Dy : y = clamp (len data) (p + 4)) by reflexivity. clearbody x y. clear ES HS EU. unfold clamp, len in *.
    destruct (Z.ltb_spec p 0); destruct (Z.ltb_spec (p + 4) 0); lia.
  - intros (u & a & b & c & d & v & -> & HS & HP). apply signed_be in HS. rewrite <- HS. f_equal.
    assert (EX : slice (u ++ [a; b; c; d] ++ v) (len u) (len u + 4) = [a; b; c; d]) by (apply slice_mid_app; reflexivity).
    destruct HP as [-> | [-> HP]]; [exact EX|]. etransitivity; [|exact EX]. unfold slice. set (N := len (u ++ [a; b; c; d] ++ v)) in *. assert (EN : N = len u + 4 + len v) by (unfold N; rewrite !len_app; change (len [a; b; c; d]) with 4; lia).
    pose proof (len_nonneg u). pose proof (len_nonneg v). clearbody N.
    assert (C1 : clamp N (len u - N) = clamp N (len u)) by (unfold clamp; destruct (Z.ltb_spec (len u - N) 0), (Z.ltb_spec (len u) 0); lia).
    assert (C2 : clamp N (len u - N + 4) = clamp N (len u + 4)) by (unfold clamp; destruct (Z.ltb_spec (len u - N + 4) 0), (Z.ltb_spec (len u + 4) 0); lia).
    rewrite C1, C2. reflexivity.
Qed.

Lemma one_array data p n : number_at data p n -> UnpackByteArray data p = Ok (slice data (p + 4) (p + 4 + n), p + 4 + n).
Proof. intros H. apply number_slice in H. unfold UnpackByteArray. rewrite H. reflexivity. Qed.
Lemma no_array data p : (forall n, ~ number_at data p n) -> UnpackByteArray data p = Raise StructError.
Proof.
  intros H. unfold UnpackByteArray. destruct (struct_unpack_i (slice data p (p + 4))) as [n|e] eqn:E; [exfalso; apply (H n), number_slice, E|].
  unfold struct_unpack_i in E. destruct (slice data p (p + 4)) as [|? [|? [|? [|? [|]]]]]; first [discriminate E | apply Raise_inj in E as <-; reflexivity].
Qed.
Lemma number_dec data p : (exists n, number_at data p n) \/ (forall n, ~ number_at data p n).
Proof.
  destruct (struct_unpack_i (slice data p (p + 4))) as [n|e] eqn:E; [left; exists n; apply number_slice, E|]. right. intros n H. apply number_slice in H. rewrite H in E. discriminate.
Qed.
Lemma number_range data p n : number_at data p n -> - len data <= p < len data.
Proof. intros (u & a & b & c & d & v & -> & _ & HP). rewrite !len_app in *. change (len [a; b; c; d]) with 4 in *. pose proof (len_nonneg u). pose proof (len_nonneg v). lia. Qed.

Lemma loop_reads data p l q : reads_arrays data p l q -> forall k acc, unpack_loop (List.length l + k) data p acc = unpack_loop k data q (acc ++ map snd l).
Proof.
  induction 1 as [p | p n l q HL HN _ IH]; intros k acc; [cbn; rewrite app_nil_r; reflexivity|].
  cbn [List.length Nat.add unpack_loop]. rewrite (proj2 (Z.ltb_lt _ _) HL), (one_array _ _ _ HN). cbn [bind]. rewrite IH, <- app_assoc. reflexivity.
Qed.
Lemma reads_app data p l1 x l2 q : reads_arrays data p l1 x -> reads_arrays data x l2 q -> reads_arrays data p (l1 ++ l2) q.
Proof. induction 1 as [p | p n l q' HL HN _ IH]; intros H2; [exact H2|]. cbn [app]. apply one_more; [exact HL | exact HN | apply IH, H2]. Qed.
Lemma reads_split data l1 : forall p l2 q, reads_arrays data p (l1 ++ l2) q -> exists x, reads_arrays data p l1 x /\ reads_arrays data x l2 q.
Proof.
  induction l1 as [|[x a] l1 IH]; intros p l2 q H; [exists p; split; [apply at_once | exact H]|]. cbn [app] in H. inversion H; subst.
  match goal with HR : reads_arrays _ _ (l1 ++ l2) q |- _ => destruct (IH _ _ _ HR) as (y & A & B) end. exists y. split; [apply one_more; assumption | exact B].
Qed.
Lemma reads_first data p x a l q : reads_arrays data p ((x, a) :: l) q -> x = p /\ - len data <= x < len data.
Proof. intros H. inversion H; subst. split; [reflexivity|]. eapply number_range. eassumption. Qed.
Lemma reads_range data p l q : reads_arrays data p l q -> Forall (fun x => - len data <= fst x < len data) l.
Proof. induction 1 as [p | p n l q HL HN _ IH]; constructor; [exact (number_range _ _ _ HN) | exact IH]. Qed.

(** With [k] rounds: the outcome, or that many arrays. *)
Lemma loop_outcome data k : forall p acc, exists l q, reads_arrays data p l q /\
  ((unpack_loop k data p acc = Ok (acc ++ map snd l, q) /\ len data <= q) \/
   (unpack_loop k data p acc = Raise StructError /\ q < len data /\ forall n, ~ number_at data q n) \/
   (unpack_loop k data p acc = Raise Diverge /\ List.length l = k /\ q < len data)).
Proof.
  induction k as [|k IH]; intros p acc; cbn [unpack_loop]; destruct (Z.ltb_spec p (len data)) as [L|L].
  - exists [], p. split; [apply at_once|]. right. right. repeat split; lia.
  - exists [], p. split; [apply at_once|]. left. rewrite app_nil_r. split; [reflexivity | lia].
  - destruct (number_dec data p) as [[n HN]|HN].
    + rewrite (one_array _ _ _ HN). cbn [bind]. destruct (IH (p + 4 + n) (acc ++ [slice data (p + 4) (p + 4 + n)])) as (l & q & HR & HO). eexists (_ :: l), q. split; [apply one_more; eassumption|].
      cbn [map snd List.length]. rewrite <- app_assoc in HO. destruct HO as [HO|[HO|(A & B & C)]]; [left; exact HO | right; left; exact HO | right; right; repeat split; [exact A | lia | exact C]].
    + rewrite (no_array _ _ HN). exists [], p. split; [apply at_once|]. right. left. repeat split; assumption.
  - exists [], p. split; [apply at_once|]. left. rewrite app_nil_r. split; [reflexivity | lia].
Qed.

Lemma repeated (l : list Z) : ~ NoDup l -> exists x l1 l2 l3, l = l1 ++ x :: l2 ++ x :: l3.
Proof.
  induction l as [|a l IH]; intros H; [exfalso; apply H; constructor|]. destruct (in_dec Z.eq_dec a l) as [I|I].
  - apply in_split in I as (l2 & l3 & ->). exists a, [], l2, l3. reflexivity.
  - destruct IH as (x & l1 & l2 & l3 & ->); [intros N; apply H; constructor; assumption|]. exists x, (a :: l1), l2, l3. reflexivity.
Qed.

(** A position met twice is met for ever. *)
Lemma cycle_diverges data x a l : reads_arrays data x (a :: l) x -> forall k acc, unpack_loop k data x acc = Raise Diverge.
Proof.
  intros H k. induction (lt_wf k) as [k _ IH]. intros acc.
  destruct (le_lt_dec k (List.length l)) as [L|L].
  - destruct (loop_outcome data k x acc) as (l' & q & HR & [[E HQ]|[(E & HQ & HN)|(E & _)]]); [| |exact E]; exfalso.
    + pose proof (unpack_loop_mono k data x acc ltac:(rewrite E; discriminate) (List.length (a :: l) + 0)%nat ltac:(cbn; lia)) as M. rewrite (loop_reads _ _ _ _ H), E in M. cbn [unpack_loop] in M.
      assert (HX : x < len data) by (destruct a; apply reads_first in H; lia). rewrite (proj2 (Z.ltb_lt _ _) HX) in M. discriminate.
    + pose proof (unpack_loop_mono k data x acc ltac:(rewrite E; discriminate) (List.length (a :: l) + 0)%nat ltac:(cbn; lia)) as M. rewrite (loop_reads _ _ _ _ H), E in M. cbn [unpack_loop] in M.
      assert (HX : x < len data) by (destruct a; apply reads_first in H; lia). rewrite (proj2 (Z.ltb_lt _ _) HX) in M. discriminate.
  - replace k with (List.length (a :: l) + (k - List.length (a :: l)))%nat by (cbn; cbn in L; lia). rewrite (loop_reads _ _ _ _ H). apply IH. cbn. lia.
Qed.

(** ** C08 *)

(** For every text: which lists are returned, which exceptions are raised, and when the call does not
    end, namely when reading comes back to a position; and how many rounds suffice otherwise. *)
Theorem C08_exactly : forall data,
  (forall arrays, (exists k, UnpackMultipleByteArrays k data = Ok arrays) <-> exists l, reads_arrays data 4 l (len data) /\ arrays = map snd l) /\
  ((exists k, UnpackMultipleByteArrays k data = Raise AssertionError) <-> exists l q, reads_arrays data 4 l q /\ len data < q) /\
  ((exists k, UnpackMultipleByteArrays k data = Raise StructError) <-> exists l q, reads_arrays data 4 l q /\ q < len data /\ forall n, ~ number_at data q n) /\
  ((forall k, UnpackMultipleByteArrays k data = Raise Diverge) <-> exists l q, reads_arrays data 4 l q /\ ~ NoDup (map fst l)) /\
  (forall k, UnpackMultipleByteArrays (rounds data) data <> Raise Diverge -> (rounds data <= k)%nat -> UnpackMultipleByteArrays k data = UnpackMultipleByteArrays (rounds data) data) /\
  (UnpackMultipleByteArrays (rounds data) data = Raise Diverge -> forall k, UnpackMultipleByteArrays k data = Raise Diverge) /\
  (forall k e, UnpackMultipleByteArrays k data = Raise e -> e = AssertionError \/ e = StructError \/ e = Diverge).
Proof.
  intros data.
  assert (FIN : forall l q, reads_arrays data 4 l q -> forall k, (List.length l <= k)%nat -> unpack_loop k data 4 [] = unpack_loop (k - List.length l) data q (map snd l)).
  { intros l q HR k HK. replace k with (List.length l + (k - List.length l))%nat at 1 by lia. rewrite (loop_reads _ _ _ _ HR). reflexivity. }
  assert (DIV : forall l q, reads_arrays data 4 l q -> ~ NoDup (map fst l) -> forall k, UnpackMultipleByteArrays k data = Raise Diverge).
  { intros l q HR ND k. apply repeated in ND as (x & l1 & l2 & l3 & E). apply map_eq_app in E as (m1 & m2 & -> & _ & E). apply map_eq_cons in E as ([x1 a1] & m3 & -> & E1 & E). apply map_eq_app in E as (m4 & m5 & -> & _ & E). apply map_eq_cons in E as ([x2 a2] & m6 & -> & E2 & _). cbn [fst] in E1, E2. subst x1 x2.
    apply reads_split in HR as (y & R1 & R2). rewrite app_comm_cons in R2. apply reads_split in R2 as (z & R2 & R3). destruct (reads_first _ _ _ _ _ _ R2) as [<- RX]. destruct (reads_first _ _ _ _ _ _ R3) as [<- _].
    assert (D : unpack_loop k data 4 [] = Raise Diverge).
    { destruct (loop_outcome data k 4 []) as (l' & q' & HR' & HO). pose proof (FIN _ _ R1 (k + List.length m1)%nat ltac:(lia)) as F. rewrite (cycle_diverges _ _ _ _ R2) in F.
      destruct HO as [[E _]|[[E _]|[E _]]]; [| |exact E]; exfalso; rewrite (unpack_loop_mono k data 4 [] ltac:(rewrite E; discriminate)) in F by lia; rewrite E in F; discriminate. }
    unfold UnpackMultipleByteArrays. rewrite D. reflexivity. }
  assert (BOUND : unpack_loop (rounds data) data 4 [] = Raise Diverge -> exists l q, reads_arrays data 4 l q /\ ~ NoDup (map fst l)).
  { intros D. destruct (loop_outcome data (rounds data) 4 []) as (l & q & HR & [[E _]|[[E _]|(_ & EL & HQ)]]); [rewrite E in D; discriminate | rewrite E in D; discriminate|].
    exists l, q. split; [exact HR|]. intros ND.
    assert (IN : incl (map fst l) (map (fun i => Z.of_nat i - len data) (seq 0 (2 * List.length data)))).
    { intros x HX. apply in_map_iff in HX as (y & <- & HY). pose proof (proj1 (Forall_forall _ _) (reads_range _ _ _ _ HR) y HY) as R. cbn beta in R. apply in_map_iff. exists (Z.to_nat (fst y + len data)). unfold len in *. split; [lia|]. apply in_seq. lia. }
    pose proof (NoDup_incl_length ND IN) as LE. rewrite !map_length, seq_length in LE. unfold rounds in EL. lia. }
  assert (UML : forall k, UnpackMultipleByteArrays k data = Raise Diverge <-> unpack_loop k data 4 [] = Raise Diverge).
  { intros k. unfold UnpackMultipleByteArrays. destruct (unpack_loop k data 4 []) as [[l p]|e]; cbn [bind]; [destruct (p =? len data); split; discriminate | split; congruence]. }
  assert (STUCK : forall l q, reads_arrays data 4 l q -> q < len data -> (forall n, ~ number_at data q n) -> unpack_loop (List.length l + 1) data 4 [] = Raise StructError).
  { intros l q HR HQ HN. rewrite (loop_reads _ _ _ _ HR). cbn [unpack_loop]. rewrite (proj2 (Z.ltb_lt _ _) HQ), (no_array _ _ HN). reflexivity. }
  assert (DONE : forall l q, reads_arrays data 4 l q -> len data <= q -> unpack_loop (List.length l + 0) data 4 [] = Ok (map snd l, q)).
  { intros l q HR HQ. rewrite (loop_reads _ _ _ _ HR). cbn [unpack_loop]. rewrite (proj2 (Z.ltb_ge _ _) HQ). reflexivity. }
  split; [|split; [|split; [|split; [|split; [|split]]]]].
  - intros arrays. split.
    + intros [k H]. unfold UnpackMultipleByteArrays in H. destruct (loop_outcome data k 4 []) as (l & q & HR & [[E HQ]|[[E _]|[E _]]]); rewrite E in H; try discriminate. cbn [bind app] in H.
      destruct (Z.eqb_spec q (len data)) as [EQ|]; [|discriminate]. rewrite EQ in HR. apply Ok_inj in H as <-. exists l. split; [exact HR | reflexivity].
    + intros (l & HR & ->). exists (List.length l + 0)%nat. unfold UnpackMultipleByteArrays. rewrite (DONE _ _ HR ltac:(lia)). cbn [bind]. rewrite Z.eqb_refl. reflexivity.
  - split.
    + intros [k H]. unfold UnpackMultipleByteArrays in H. destruct (loop_outcome data k 4 []) as (l & q & HR & [[E HQ]|[[E _]|[E _]]]); rewrite E in H; try discriminate. cbn [bind app] in H.
      destruct (Z.eqb_spec q (len data)) as [EQ|]; [discriminate|]. exists l, q. split; [exact HR | lia].
    + intros (l & q & HR & HQ). exists (List.length l + 0)%nat. unfold UnpackMultipleByteArrays. rewrite (DONE _ _ HR ltac:(lia)). cbn [bind]. destruct (Z.eqb_spec q (len data)); [lia | reflexivity].
  - split.
    + intros [k H]. unfold UnpackMultipleByteArrays in H. destruct (loop_outcome data k 4 []) as (l & q & HR & [[E HQ]|[(E & HQ & HN)|[E _]]]); rewrite E in H; try discriminate; [cbn [bind] in H; destruct (q =? len data); discriminate|]. exists l, q. repeat split; assumption.
    + intros (l & q & HR & HQ & HN). exists (List.length l + 1)%nat. unfold UnpackMultipleByteArrays. rewrite (STUCK _ _ HR HQ HN). reflexivity.
  - split; [intros H; apply BOUND, UML, H | intros (l & q & HR & ND); exact (DIV l q HR ND)].
  - intros k H HK. rewrite UML in H. unfold UnpackMultipleByteArrays. rewrite (unpack_loop_mono _ _ _ _ H k HK). reflexivity.
  - intros H. apply UML, BOUND in H as (l & q & HR & ND). exact (DIV l q HR ND).
  - intros k e H. unfold UnpackMultipleByteArrays in H. destruct (loop_outcome data k 4 []) as (l & q & HR & [[E HQ]|[(E & HQ & HN)|[E _]]]); rewrite E in H; cbn [bind] in H; [destruct (q =? len data); [discriminate|] | |]; apply Raise_inj in H as <-; auto.
Qed.
Print Assumptions C08_exactly.

(** Two arrays that are read in turn for ever: lengths 2 and -10. *)
Example C08_exactly_case : let data := [x00; x00; x00; x01; x00; x00; x00; x02; x41; x42; xff; xff; xff; xf6; x00] in
  exists l q, reads_arrays data 4 l q /\ ~ NoDup (map fst l).
Proof.
  cbn zeta. eexists [_; _; _]. eexists. split.
  - apply (one_more _ 4 2); [reflexivity | exists [x00; x00; x00; x01], x00, x00, x00, x02; eexists; split; [reflexivity|]; split; [apply signed_be; reflexivity | left; reflexivity]|].
    apply (one_more _ (4 + 4 + 2) (-10)); [reflexivity | exists [x00; x00; x00; x01; x00; x00; x00; x02; x41; x42], xff, xff, xff, xf6; eexists; split; [reflexivity|]; split; [apply signed_be; reflexivity | left; reflexivity]|].
    apply (one_more _ (4 + 4 + 2 + 4 + -10) 2); [reflexivity | exists [x00; x00; x00; x01], x00, x00, x00, x02; eexists; split; [reflexivity|]; split; [apply signed_be; reflexivity | left; reflexivity]|]. apply at_once.
  - intros H. apply NoDup_cons_iff in H as [H _]. apply H. right. left. reflexivity.
Qed.
