(** * JsonSpecFacts: [Json.loads] reads the texts of JsonSpec, and no others. *)
From Coq Require Import Strings.String.
From Coq Require Import List ZArith NArith Bool Lia ZifyBool ZifyNat ZifyN.
From Coq.Init Require Import Byte.
From Verif Require Import PyBase PyFacts Json JsonFacts JsonSpec.
Import ListNotations.
Local Open Scope Z_scope.
Ltac Zify.zify_post_hook ::= idtac.

Lemma app_same_length {A} (a b c d : list A) : a ++ c = b ++ d -> length a = length b -> a = b /\ c = d.
Proof.
  revert b. induction a as [|x a IH]; intros [|y b] E L; try discriminate L; [split; [reflexivity | exact E]|].
  cbn [app] in E. injection E as -> E. destruct (IH b E) as [-> ->]; [cbn [length] in L; lia | split; reflexivity].
Qed.

(** ** Hexadecimal digits *)
Lemma hex_val_spec c n : hex_val c = Some n <-> hexdigit c n.
Proof.
  unfold hex_val. split.
  - destruct ((48 <=? ord c) && (ord c <=? 57)) eqn:E1; [intros H; apply Some_inj in H as <-; apply hex_dec; lia|].
    destruct ((97 <=? ord c) && (ord c <=? 102)) eqn:E2.
    { intros H. apply Some_inj in H as <-. replace (ord c - 87) with (ord c - 97 + 10) by lia. apply hex_lower. lia. }
    destruct ((65 <=? ord c) && (ord c <=? 70)) eqn:E3; [|discriminate].
    intros H. apply Some_inj in H as <-. replace (ord c - 55) with (ord c - 65 + 10) by lia. apply hex_upper. lia.
  - intros [c' H|c' H|c' H].
    + replace ((48 <=? ord c') && (ord c' <=? 57)) with true by lia. reflexivity.
    + replace ((48 <=? ord c') && (ord c' <=? 57)) with false by lia. replace ((97 <=? ord c') && (ord c' <=? 102)) with true by lia. f_equal. lia.
    + replace ((48 <=? ord c') && (ord c' <=? 57)) with false by lia. replace ((97 <=? ord c') && (ord c' <=? 102)) with false by lia.
      replace ((65 <=? ord c') && (ord c' <=? 70)) with true by lia. f_equal. lia.
Qed.

Lemma parse_hex4_complete h n r : hex4 h n -> parse_hex4 (h ++ r) = Some (n, r).
Proof.
  intros (a & b & c & d & x & y & z & w & -> & H1 & H2 & H3 & H4 & ->). apply hex_val_spec in H1, H2, H3, H4.
  cbn [app parse_hex4]. rewrite H1, H2, H3, H4. do 2 f_equal. lia.
Qed.
Lemma parse_hex4_sound s n r : parse_hex4 s = Some (n, r) -> exists h, s = h ++ r /\ hex4 h n.
Proof.
  unfold parse_hex4. destruct s as [|a [|b [|c [|d s]]]]; try discriminate.
  destruct (hex_val a) as [x|] eqn:H1; [|discriminate]. destruct (hex_val b) as [y|] eqn:H2; [|discriminate].
  destruct (hex_val c) as [z|] eqn:H3; [|discriminate]. destruct (hex_val d) as [w|] eqn:H4; [|discriminate].
  intros E. apply Some_inj in E. apply pair_inj in E as [<- <-]. apply hex_val_spec in H1, H2, H3, H4.
  exists [a; b; c; d]. split; [reflexivity|]. exists a, b, c, d, x, y, z, w. repeat (split; [assumption || reflexivity|]). lia.
Qed.
Lemma hex4_length h n : hex4 h n -> length h = 4%nat.
Proof. intros (a & b & c & d & x & y & z & w & -> & _). reflexivity. Qed.
Lemma hex4_fun h n m : hex4 h n -> hex4 h m -> n = m.
Proof. intros H1 H2. apply (parse_hex4_complete h n []) in H1. apply (parse_hex4_complete h m []) in H2. congruence. Qed.
Lemma hex4_app h h' n n' r r' : hex4 h n -> hex4 h' n' -> h ++ r = h' ++ r' -> h = h' /\ r = r' /\ n = n'.
Proof.
  intros H H' E. assert (L : length h = length h') by (rewrite (hex4_length _ _ H), (hex4_length _ _ H'); reflexivity).
  apply app_same_length in E as [-> ->]; [|exact L]. split; [reflexivity|]. split; [reflexivity|]. apply (hex4_fun h' _ _ H H').
Qed.
Lemma hexdigit_not c n : hexdigit c n -> c <> x22.
Proof. intros H ->. inversion H as [c H1|c H1|c H1]; subst; revert H1; vm_compute; intuition discriminate. Qed.

(** ** UTF-8 *)
Lemma cont_spec a x : cont a = Some x <-> ((x < 64)%N /\ a = chr (128 + Z.of_N x)).
Proof.
  unfold cont. split.
  - destruct ((128 <=? ord a) && (ord a <=? 191)) eqn:E; [|discriminate]. intros H. apply Some_inj in H as <-. split; [lia|].
    rewrite <- (chr_ord a) at 1. f_equal. lia.
  - intros [H ->]. rewrite ord_chr_small by lia. replace ((128 <=? 128 + Z.of_N x) && (128 + Z.of_N x <=? 191)) with true by lia. f_equal. lia.
Qed.
Lemma byte_is c k : ord c = k -> c = chr k.
Proof. intros <-. symmetry. apply chr_ord. Qed.
Lemma parse_utf8_sound c s m r : parse_utf8 c s = Ok (m, r) -> c :: s = utf8_of m ++ r /\ (128 <= m < 1114112)%N.
Proof.
  unfold parse_utf8. set (k := Z.to_N (ord c)). assert (K : ord c = Z.of_N k) by (subst k; pose proof (ord_range c); lia). clearbody k.
  destruct ((194 <=? k) && (k <=? 223))%N eqn:E1.
  { destruct s as [|a s]; [discriminate|]. destruct (cont a) as [x|] eqn:Ha; [|discriminate]. intros H. apply Ok_inj in H. apply pair_inj in H as [<- <-].
    apply cont_spec in Ha as [Hx ->]. set (n := ((k - 192) * 64 + x)%N). assert (N1 : (n / 64 = k - 192)%N) by (subst n; rewrite N.div_add_l, N.div_small by lia; lia).
    assert (N2 : (n mod 64 = x)%N) by (subst n; rewrite N.add_comm, N.mod_add, N.mod_small by lia; reflexivity).
    split; [|lia]. unfold utf8_of. replace (n <? 2048)%N with true by lia. rewrite N1, N2. cbn [app]. f_equal. apply byte_is. lia. }
  destruct ((224 <=? k) && (k <=? 239))%N eqn:E2.
  { destruct s as [|a [|b s]]; [discriminate | discriminate |]. destruct (cont a) as [x|] eqn:Ha; [|discriminate]. destruct (cont b) as [y|] eqn:Hb; [|discriminate].
    cbv zeta. set (n := ((k - 224) * 4096 + x * 64 + y)%N). destruct (n <? 2048)%N eqn:E3; [discriminate|]. intros H. apply Ok_inj in H. apply pair_inj in H as [<- <-].
    apply cont_spec in Ha as [Hx ->]. apply cont_spec in Hb as [Hy ->].
    assert (N1 : (n / 64 = (k - 224) * 64 + x)%N) by (subst n; replace ((k - 224) * 4096 + x * 64 + y)%N with (((k - 224) * 64 + x) * 64 + y)%N by lia; rewrite N.div_add_l, N.div_small by lia; lia).
    assert (N2 : (n mod 64 = y)%N) by (subst n; replace ((k - 224) * 4096 + x * 64 + y)%N with (y + ((k - 224) * 64 + x) * 64)%N by lia; rewrite N.mod_add, N.mod_small by lia; reflexivity).
    assert (N3 : (n / 4096 = k - 224)%N) by (change 4096%N with (64 * 64)%N; rewrite <- N.div_div, N1, N.div_add_l, N.div_small by lia; lia).
    assert (N4 : (n / 64 mod 64 = x)%N) by (rewrite N1, N.add_comm, N.mod_add, N.mod_small by lia; reflexivity).
    split; [|lia]. unfold utf8_of. rewrite E3. replace (n <? 65536)%N with true by lia. rewrite N2, N3, N4. cbn [app]. f_equal. apply byte_is. lia. }
  destruct ((240 <=? k) && (k <=? 244))%N eqn:E3; [|discriminate].
  destruct s as [|a [|b [|d s]]]; [discriminate | discriminate | discriminate |]. destruct (cont a) as [x|] eqn:Ha; [|discriminate]. destruct (cont b) as [y|] eqn:Hb; [|discriminate]. destruct (cont d) as [z|] eqn:Hd; [|discriminate].
  cbv zeta. set (n := ((k - 240) * 262144 + x * 4096 + y * 64 + z)%N). destruct ((n <? 65536) || (1114111 <? n))%N eqn:E4; [discriminate|]. intros H. apply Ok_inj in H. apply pair_inj in H as [<- <-].
  apply cont_spec in Ha as [Hx ->]. apply cont_spec in Hb as [Hy ->]. apply cont_spec in Hd as [Hz ->].
  assert (N1 : (n / 64 = (k - 240) * 4096 + x * 64 + y)%N) by (subst n; replace ((k - 240) * 262144 + x * 4096 + y * 64 + z)%N with (((k - 240) * 4096 + x * 64 + y) * 64 + z)%N by lia; rewrite N.div_add_l, N.div_small by lia; lia).
  assert (N2 : (n mod 64 = z)%N) by (subst n; replace ((k - 240) * 262144 + x * 4096 + y * 64 + z)%N with (z + ((k - 240) * 4096 + x * 64 + y) * 64)%N by lia; rewrite N.mod_add, N.mod_small by lia; reflexivity).
  assert (N3 : (n / 4096 = (k - 240) * 64 + x)%N) by (change 4096%N with (64 * 64)%N at 1; rewrite <- N.div_div, N1 by lia; replace ((k - 240) * 4096 + x * 64 + y)%N with (((k - 240) * 64 + x) * 64 + y)%N by lia; rewrite N.div_add_l, N.div_small by lia; lia).
  assert (N4 : (n / 64 mod 64 = y)%N) by (rewrite N1; replace ((k - 240) * 4096 + x * 64 + y)%N with (y + ((k - 240) * 64 + x) * 64)%N by lia; rewrite N.mod_add, N.mod_small by lia; reflexivity).
  assert (N5 : (n / 262144 = k - 240)%N) by (change 262144%N with (4096 * 64)%N at 1; rewrite <- N.div_div, N3, N.div_add_l, N.div_small by lia; lia).
  assert (N6 : (n / 4096 mod 64 = x)%N) by (rewrite N3, N.add_comm, N.mod_add, N.mod_small by lia; reflexivity).
  split; [|lia]. unfold utf8_of. replace (n <? 2048)%N with false by lia. replace (n <? 65536)%N with false by lia. rewrite N2, N4, N5, N6. cbn [app]. f_equal. apply byte_is. lia.
Qed.
Lemma parse_utf8_complete n : (128 <= n < 1114112)%N -> exists c s, utf8_of n = c :: s /\ 128 <= ord c /\ forall r, parse_utf8 c (s ++ r) = Ok (n, r).
Proof.
  intros H. pose proof (N.div_mod' n 64) as D1. pose proof (N.mod_lt n 64 ltac:(lia)) as M1. pose proof (N.div_mod' (n / 64) 64) as D2. pose proof (N.mod_lt (n / 64) 64 ltac:(lia)) as M2.
  pose proof (N.div_mod' (n / 4096) 64) as D3. pose proof (N.mod_lt (n / 4096) 64 ltac:(lia)) as M3.
  assert (Q1 : (n / 64 / 64 = n / 4096)%N) by (rewrite N.div_div by lia; reflexivity). assert (Q2 : (n / 4096 / 64 = n / 262144)%N) by (rewrite N.div_div by lia; reflexivity).
  rewrite Q1 in D2. rewrite Q2 in D3.
  assert (C : forall x, (x < 64)%N -> cont (chr (128 + Z.of_N x)) = Some x) by (intros x Hx; apply cont_spec; split; [exact Hx | reflexivity]).
  unfold utf8_of. destruct (n <? 2048)%N eqn:E1; [|destruct (n <? 65536)%N eqn:E2]; eexists _, _; (split; [reflexivity|]); rewrite ord_chr_small by lia; (split; [lia|]); intros r; cbn [app]; unfold parse_utf8; rewrite ord_chr_small by lia.
  - replace (Z.to_N (192 + Z.of_N (n / 64))) with (192 + n / 64)%N by lia. replace ((194 <=? 192 + n / 64) && (192 + n / 64 <=? 223))%N with true by lia.
    rewrite C by lia. do 2 f_equal. lia.
  - replace (Z.to_N (224 + Z.of_N (n / 4096))) with (224 + n / 4096)%N by lia.
    replace ((194 <=? 224 + n / 4096) && (224 + n / 4096 <=? 223))%N with false by lia. replace ((224 <=? 224 + n / 4096) && (224 + n / 4096 <=? 239))%N with true by lia.
    rewrite !C by lia. cbv zeta. replace ((224 + n / 4096 - 224) * 4096 + n / 64 mod 64 * 64 + n mod 64)%N with n by lia. rewrite E1. reflexivity.
  - replace (Z.to_N (240 + Z.of_N (n / 262144))) with (240 + n / 262144)%N by lia.
    replace ((194 <=? 240 + n / 262144) && (240 + n / 262144 <=? 223))%N with false by lia. replace ((224 <=? 240 + n / 262144) && (240 + n / 262144 <=? 239))%N with false by lia.
    replace ((240 <=? 240 + n / 262144) && (240 + n / 262144 <=? 244))%N with true by lia.
    rewrite !C by lia. cbv zeta. replace ((240 + n / 262144 - 240) * 262144 + n / 4096 mod 64 * 4096 + n / 64 mod 64 * 64 + n mod 64)%N with n by lia.
    replace ((n <? 65536) || (1114111 <? n))%N with false by lia. reflexivity.
Qed.

(** ** Strings *)

(** One character, as read inside of [parse_string]. *)
Definition one_char (c : byte) (s' : str) : res (N * str) :=
              (if beqb c "\"%byte then
                 match s' with
                 | e :: s'' =>
                     if beqb e "u"%byte then parse_u s''
                     else if beqb e """"%byte then Ok (34%N, s'')
                     else if beqb e "\"%byte then Ok (92%N, s'')
                     else if beqb e "/"%byte then Ok (47%N, s'')
                     else if beqb e "b"%byte then Ok (8%N, s'')
                     else if beqb e "f"%byte then Ok (12%N, s'')
                     else if beqb e "n"%byte then Ok (10%N, s'')
                     else if beqb e "r"%byte then Ok (13%N, s'')
                     else if beqb e "t"%byte then Ok (9%N, s'')
                     else Raise ValueError
                 | [] => Raise ValueError
                 end
               else if ord c <? 32 then Raise ValueError
               else if ord c <? 128 then Ok (Z.to_N (ord c), s')
               else parse_utf8 c s').
Lemma parse_string_S f c s' : parse_string (S f) (c :: s') =
  if beqb c """"%byte then Ok ([], s') else let* (u, r) := one_char c s' in let* (t, rest) := parse_string f r in Ok (u :: t, rest).
Proof. reflexivity. Qed.

Lemma joins_nonescape s r c s' : s = c :: s' -> c <> x5c -> ~ joins s r.
Proof. intros -> H (h & l & u & w & r' & E & _). injection E as -> _. congruence. Qed.
Lemma joins_short r c : c <> x75 -> ~ joins [x5c; c] r.
Proof. intros H (h & l & u & w & r' & E & _). injection E as -> _. congruence. Qed.
Lemma joins_more s b r : joins s b -> joins s (b ++ r).
Proof.
  intros (h & l & u & w & r' & -> & -> & H). exists h, l, u, w, (r' ++ r). split; [reflexivity|]. split; [|exact H]. cbn [app]. rewrite <- app_assoc. reflexivity.
Qed.
Lemma joins_less s b r : joins s (b ++ x22 :: r) -> joins s b.
Proof.
  intros (h & l & u & w & r' & -> & E & H1 & H2 & H3). pose proof H2 as (a1 & a2 & a3 & a4 & y1 & y2 & y3 & y4 & -> & X1 & X2 & X3 & X4 & _).
  apply hexdigit_not in X1, X2, X3, X4.
  destruct b as [|b1 [|b2 [|b3 [|b4 [|b5 [|b6 b]]]]]]; cbn [app] in E; try (injection E; intros; subst; congruence).
  injection E as -> -> -> -> -> -> E. exists h, [a1; a2; a3; a4], u, w, b. repeat (split; [assumption || reflexivity|]). exact H3.
Qed.

Lemma parse_u_sound s n r : parse_u s = Ok (n, r) -> exists p, s = p ++ r /\ jchar (x5c :: x75 :: p) n /\ ~ joins (x5c :: x75 :: p) r.
Proof.
  unfold parse_u. destruct (parse_hex4 s) as [[u s1]|] eqn:E1; [|discriminate]. apply parse_hex4_sound in E1 as (h & -> & Hh).
  assert (U : forall r', ~ (is_high u /\ exists l w q, r' = x5c :: x75 :: l ++ q /\ hex4 l w /\ is_low w) -> Ok (u, s1) = Ok (n, r) -> r' = s1 ->
    exists p, h ++ s1 = p ++ r /\ jchar (x5c :: x75 :: p) n /\ ~ joins (x5c :: x75 :: p) r).
  { intros r' HN H ->. apply Ok_inj in H. apply pair_inj in H as [<- <-]. exists h. split; [reflexivity|]. split; [apply char_unit, Hh|].
    intros (h' & l & u' & w & q & E & -> & H1 & H2 & H3 & H4). injection E as <-. rewrite (hex4_fun _ _ _ Hh H1) in HN. apply HN. split; [exact H3|]. exists l, w, q. split; [reflexivity|]. split; assumption. }
  destruct ((55296 <=? u) && (u <=? 56319))%N eqn:E2; [|intros H; apply (U s1); [|exact H | reflexivity]; intros [X _]; unfold is_high in X; lia].
  destruct s1 as [|a [|b s2]]; try (intros H; eapply U; [|exact H | reflexivity]; intros [_ (l & w & q & X & _)]; discriminate X).
  destruct (beqb a "\"%byte && beqb b "u"%byte) eqn:E3.
  2:{ intros H. eapply U; [|exact H | reflexivity]. intros [_ (l & w & q & X & _)]. injection X as -> -> _. rewrite !beqb_refl in E3. discriminate. }
  apply andb_true_iff in E3 as [Ea Eb]. apply beqb_eq in Ea as ->. apply beqb_eq in Eb as ->.
  destruct (parse_hex4 s2) as [[l s3]|] eqn:E4; [|discriminate]. apply parse_hex4_sound in E4 as (hl & -> & Hl).
  destruct ((56320 <=? l) && (l <=? 57343))%N eqn:E5.
  - intros H. apply Ok_inj in H. apply pair_inj in H as [<- <-]. exists (h ++ x5c :: x75 :: hl). split; [rewrite <- app_assoc; reflexivity|].
    split; [apply char_pair; [exact Hh | exact Hl | unfold is_high; lia | unfold is_low; lia]|].
    intros (h' & l' & u' & w & q & E & _ & H1 & _). injection E as E. apply hex4_length in H1. rewrite <- E, app_length, (hex4_length _ _ Hh) in H1. cbn [length] in H1. lia.
  - intros H. eapply U; [|exact H | reflexivity]. intros [_ (l' & w & q & X & HX & HL)]. injection X as X. destruct (hex4_app _ _ _ _ _ _ Hl HX X) as (_ & _ & ->). unfold is_low in HL. lia.
Qed.

Lemma one_char_sound c s n r : beqb c """"%byte = false -> one_char c s = Ok (n, r) -> exists p, p <> [] /\ c :: s = p ++ r /\ jchar p n /\ ~ joins p r.
Proof.
  intros Q. apply beqb_neq in Q. unfold one_char. destruct (beqb c "\"%byte) eqn:E1.
  - apply beqb_eq in E1 as ->. destruct s as [|e s]; [discriminate|]. destruct (beqb e "u"%byte) eqn:E2.
    { apply beqb_eq in E2 as ->. intros H. apply parse_u_sound in H as (p & -> & H1 & H2). exists (x5c :: x75 :: p). split; [discriminate|]. split; [reflexivity|]. split; assumption. }
    apply beqb_neq in E2.
    assert (S : forall b k, beqb e b = true -> In (b, k) short_escapes -> Ok (k, s) = Ok (n, r) -> exists p, p <> [] /\ x5c :: e :: s = p ++ r /\ jchar p n /\ ~ joins p r).
    { intros b k EB HI H. apply beqb_eq in EB as ->. apply Ok_inj in H. apply pair_inj in H as [<- <-]. exists [x5c; b]. split; [discriminate|]. split; [reflexivity|]. split; [apply char_short, HI | apply joins_short, E2]. }
    repeat match goal with |- context [if beqb e ?b then _ else _] => let E := fresh "E" in destruct (beqb e b) eqn:E; [apply (S b _ E); cbn; tauto|] end. discriminate.
  - apply beqb_neq in E1. destruct (ord c <? 32) eqn:E3; [discriminate|]. destruct (ord c <? 128) eqn:E4.
    + intros H. apply Ok_inj in H. apply pair_inj in H as [<- <-]. exists [c]. split; [discriminate|]. split; [reflexivity|]. split; [apply char_ascii; [lia | exact Q | exact E1] | apply (joins_nonescape _ _ c []); [reflexivity | exact E1]].
    + intros H. apply parse_utf8_sound in H as [H1 H2]. exists (utf8_of n). rewrite H1. destruct (parse_utf8_complete n H2) as (c' & s' & EU & HO & _). rewrite EU in *.
      split; [discriminate|]. split; [reflexivity|]. split; [rewrite <- EU; apply char_utf8, H2|]. cbn [app] in H1. injection H1 as <- _. apply (joins_nonescape _ _ c s'); [reflexivity | exact E1].
Qed.
Lemma parse_string_sound f : forall s t r, parse_string f s = Ok (t, r) -> exists b, s = b ++ x22 :: r /\ jchars b t.
Proof.
  induction f as [|f IH]; intros s t r H; [discriminate|]. destruct s as [|c s]; [discriminate|]. rewrite parse_string_S in H.
  destruct (beqb c """"%byte) eqn:E.
  - apply beqb_eq in E as ->. apply Ok_inj in H. apply pair_inj in H as [<- <-]. exists []. split; [reflexivity | constructor].
  - apply bind_Ok in H as ([u r1] & H1 & H). apply bind_Ok in H as ([t' rest] & H2 & H). apply Ok_inj in H. apply pair_inj in H as [<- <-].
    destruct (one_char_sound _ _ _ _ E H1) as (p & _ & EP & HC & HJ). destruct (IH _ _ _ H2) as (b & -> & HB). exists (p ++ b). rewrite EP, <- app_assoc. split; [reflexivity|].
    apply chars_cons; [exact HC | exact HB|]. intros J. apply HJ. apply joins_more, J.
Qed.

(** After an escaped surrogate. *)
Lemma chars_u b t : jchars b t -> forall r, b = x5c :: x75 :: r -> exists h w q, r = h ++ q /\ hex4 h w.
Proof.
  intros [|s n r' t' HC HR HJ] r E; [discriminate|]. inversion HC as [c A1 A2 A3 A4 A5|n' A1 A2 A3|c n' A1 A2 A3|h n' A1 A2 A3|h l u w A1 A2 A3 A4 A5 A6]; subst.
  - injection E as -> _. contradiction.
  - destruct (parse_utf8_complete n A1) as (c & s & EU & HO & _). rewrite EU in E. injection E as -> _. exfalso. revert HO. vm_compute. intuition discriminate.
  - injection E as -> _. exfalso. unfold short_escapes in A1. cbn [In] in A1. intuition discriminate.
  - injection E as <-. exists h, n, r'. split; [reflexivity | exact A1].
  - injection E as <-. exists h, u, ((x5c :: x75 :: l) ++ r'). split; [rewrite <- app_assoc; reflexivity | exact A1].
Qed.
Lemma parse_u_complete h n b t r : hex4 h n -> jchars b t -> ~ joins (x5c :: x75 :: h) b -> parse_u (h ++ b ++ x22 :: r) = Ok (n, b ++ x22 :: r).
Proof.
  intros HH HB HJ. unfold parse_u. rewrite (parse_hex4_complete _ _ _ HH). destruct ((55296 <=? n) && (n <=? 56319))%N eqn:E1; [|reflexivity].
  destruct (b ++ x22 :: r) as [|a1 [|a2 s2]] eqn:E; [reflexivity | reflexivity|]. destruct (beqb a1 "\"%byte && beqb a2 "u"%byte) eqn:E3; [|reflexivity].
  apply andb_true_iff in E3 as [Ea Eb]. apply beqb_eq in Ea as ->. apply beqb_eq in Eb as ->.
  destruct b as [|b1 [|b2 b]]; cbn [app] in E; try discriminate E. injection E as -> -> <-.
  destruct (chars_u _ _ HB _ eq_refl) as (h' & w & q & -> & Hw). rewrite <- app_assoc, (parse_hex4_complete _ _ _ Hw).
  destruct ((56320 <=? w) && (w <=? 57343))%N eqn:E5; [|reflexivity]. exfalso. apply HJ. exists h, h', n, w, q. unfold is_high, is_low. repeat (split; [assumption || reflexivity || lia|]). lia.
Qed.
Lemma one_char_complete s n b t r : jchar s n -> jchars b t -> ~ joins s b ->
  exists c s', s = c :: s' /\ c <> x22 /\ one_char c (s' ++ b ++ x22 :: r) = Ok (n, b ++ x22 :: r).
Proof.
  intros HC HB HJ. inversion HC as [c A1 A2 A3 A4 A5|n' A1 A2 A3|c n' A1 A2 A3|h n' A1 A2 A3|h l u w A1 A2 A3 A4 A5 A6]; subst.
  - exists c, []. split; [reflexivity|]. split; [exact A2|]. unfold one_char. apply beqb_neq in A3. cbn [app]. change "\"%byte with x5c. rewrite A3. replace (ord c <? 32) with false by lia. replace (ord c <? 128) with true by lia. reflexivity.
  - destruct (parse_utf8_complete n A1) as (c & s & EU & HO & HP). exists c, s. split; [exact EU|]. split; [intros ->; revert HO; vm_compute; intuition discriminate|].
    unfold one_char. destruct (beqb c "\"%byte) eqn:E1; [apply beqb_eq in E1 as ->; exfalso; revert HO; vm_compute; intuition discriminate|].
    replace (ord c <? 32) with false by lia. replace (ord c <? 128) with false by lia. apply HP.
  - exists x5c, [c]. split; [reflexivity|]. split; [discriminate|]. unfold short_escapes in A1. cbn [In] in A1.
    repeat (destruct A1 as [A1|A1]; [apply pair_inj in A1 as [<- <-]; reflexivity|]). destruct A1.
  - exists x5c, (x75 :: h). split; [reflexivity|]. split; [discriminate|]. unfold one_char. cbn [app]. change (beqb x5c "\"%byte) with true. change (beqb x75 "u"%byte) with true. apply (parse_u_complete h n b t r A1 HB HJ).
  - exists x5c, (x75 :: h ++ x5c :: x75 :: l). split; [reflexivity|]. split; [discriminate|]. unfold one_char. cbn [app]. change (beqb x5c "\"%byte) with true. change (beqb x75 "u"%byte) with true.
    cbn iota. unfold parse_u. rewrite <- app_assoc, (parse_hex4_complete _ _ _ A1). unfold is_high, is_low in A3, A4. replace ((55296 <=? u) && (u <=? 56319))%N with true by lia.
    cbn [app]. change (beqb x5c "\"%byte) with true. change (beqb x75 "u"%byte) with true. cbn [andb]. rewrite (parse_hex4_complete _ _ _ A2). replace ((56320 <=? w) && (w <=? 57343))%N with true by lia. reflexivity.
Qed.
Lemma parse_string_complete b t : jchars b t -> forall f r, (length b < f)%nat -> parse_string f (b ++ x22 :: r) = Ok (t, r).
Proof.
  induction 1 as [|s n b t HC HB IH HJ]; intros f r L.
  - destruct f; [lia|]. reflexivity.
  - destruct f as [|f]; [lia|]. destruct (one_char_complete s n b t r HC HB HJ) as (c & s' & -> & HQ & E). rewrite <- app_assoc. cbn [app]. rewrite parse_string_S.
    apply beqb_neq in HQ. change """"%byte with x22. rewrite HQ, E. cbn [bind]. rewrite IH; [reflexivity|]. cbn [app length] in L. rewrite app_length in L. lia.
Qed.

(** ** Numbers *)
Definition value_of (s : str) (acc : Z) : Z := fold_left (fun acc c => acc * 10 + (ord c - 48)) s acc.
Lemma parse_digits_sound s : forall acc n r, parse_digits s acc = (n, r) -> exists p, s = p ++ r /\ Forall digit p /\ n = value_of p acc.
Proof.
  induction s as [|c s IH]; intros acc n r H; cbn [parse_digits] in H.
  - apply pair_inj in H as [<- <-]. exists []. repeat split. constructor.
  - destruct (is_digit c) eqn:E.
    + destruct (IH _ _ _ H) as (p & -> & HF & ->). exists (c :: p). split; [reflexivity|]. split; [constructor; [unfold is_digit in E; unfold digit; lia | exact HF] | reflexivity].
    + apply pair_inj in H as [<- <-]. exists []. repeat split. constructor.
Qed.
Lemma parse_digits_complete p : forall acc r, Forall digit p -> stop r -> parse_digits (p ++ r) acc = (value_of p acc, r).
Proof.
  induction p as [|c p IH]; intros acc r HF HS; [apply parse_digits_stop, HS|].
  inversion HF as [|? ? H1 H2]; subst. cbn [app parse_digits]. replace (is_digit c) with true by (unfold digit in H1; unfold is_digit; lia). apply IH; assumption.
Qed.
Lemma parse_nat_sound s n r : parse_nat s = Ok (n, r) -> exists p, s = p ++ r /\ decimal p n.
Proof.
  unfold parse_nat. destruct s as [|c s]; [discriminate|]. destruct (beqb c "0"%byte) eqn:E.
  - apply beqb_eq in E as ->. intros H. apply Ok_inj in H. apply pair_inj in H as [<- <-]. exists [x30]. split; [reflexivity|]. split; [discriminate|]. split; [repeat constructor; vm_compute; discriminate|]. split; [reflexivity|]. reflexivity.
  - destruct (is_digit c) eqn:E1; [|discriminate]. intros H. apply Ok_inj in H. cbn [parse_digits] in H. rewrite E1 in H. apply parse_digits_sound in H as (p & -> & HF & ->).
    exists (c :: p). split; [reflexivity|]. split; [discriminate|]. split; [constructor; [unfold is_digit in E1; unfold digit; lia | exact HF]|]. split; [|reflexivity].
    cbn [hd_error]. intros X. apply Some_inj in X as ->. discriminate E.
Qed.
Lemma parse_nat_complete p n r : decimal p n -> stop r -> parse_nat (p ++ r) = Ok (n, r).
Proof.
  intros (H1 & H2 & H3 & ->) HS. destruct p as [|c p]; [congruence|]. cbn [app parse_nat]. destruct (beqb c "0"%byte) eqn:E.
  - apply beqb_eq in E as ->. specialize (H3 eq_refl). injection H3 as ->. reflexivity.
  - inversion H2 as [|? ? D1 D2]; subst. replace (is_digit c) with true by (unfold digit in D1; unfold is_digit; lia). change (c :: p ++ r) with ((c :: p) ++ r). rewrite (parse_digits_complete _ 0 r H2 HS). reflexivity.
Qed.
Lemma span_digits_sound s : forall d r, span_digits s = (d, r) -> s = d ++ r /\ Forall digit d.
Proof.
  induction s as [|c s IH]; intros d r H; cbn [span_digits] in H; [apply pair_inj in H as [<- <-]; split; [reflexivity | constructor]|].
  destruct (is_digit c) eqn:E; [|apply pair_inj in H as [<- <-]; split; [reflexivity | constructor]].
  destruct (span_digits s) as [d' r'] eqn:ES. apply pair_inj in H as [<- <-]. destruct (IH _ _ eq_refl) as [-> HF]. split; [reflexivity|]. constructor; [unfold is_digit in E; unfold digit; lia | exact HF].
Qed.
Lemma span_digits_complete d r : Forall digit d -> stop r -> span_digits (d ++ r) = (d, r).
Proof.
  intros HF HS. induction HF as [|c d H _ IH].
  - destruct r as [|c r]; [reflexivity|]. cbn in HS |- *. rewrite HS. reflexivity.
  - cbn [app span_digits]. replace (is_digit c) with true by (unfold digit in H; unfold is_digit; lia). rewrite IH. reflexivity.
Qed.
Lemma parse_frac_sound s f r : parse_frac s = (f, r) -> s = f ++ r /\ (f = [] \/ frac f).
Proof.
  unfold parse_frac. destruct s as [|c s]; [intros H; apply pair_inj in H as [<- <-]; split; [reflexivity | left; reflexivity]|].
  destruct (beqb c "."%byte) eqn:E; [|intros H; apply pair_inj in H as [<- <-]; split; [reflexivity | left; reflexivity]]. apply beqb_eq in E as ->.
  destruct (span_digits s) as [[|x d] q] eqn:ES; intros H; apply pair_inj in H as [<- <-]; [split; [reflexivity | left; reflexivity]|].
  apply span_digits_sound in ES as [-> HF]. split; [reflexivity|]. right. exists (x :: d). split; [reflexivity|]. split; [discriminate | exact HF].
Qed.
Lemma parse_sign_sound s g r : parse_sign s = (g, r) -> s = g ++ r /\ In g [[]; [x2d]; [x2b]].
Proof.
  unfold parse_sign. destruct s as [|c s]; [intros H; apply pair_inj in H as [<- <-]; split; [reflexivity | cbn; tauto]|].
  destruct (beqb c "-"%byte) eqn:E1; [|destruct (beqb c "+"%byte) eqn:E2]; cbn [orb]; intros H; apply pair_inj in H as [<- <-].
  - apply beqb_eq in E1 as ->. split; [reflexivity | cbn; tauto].
  - apply beqb_eq in E2 as ->. split; [reflexivity | cbn; tauto].
  - split; [reflexivity | cbn; tauto].
Qed.
Lemma parse_exp_sound s e r : parse_exp s = (e, r) -> s = e ++ r /\ (e = [] \/ expo e).
Proof.
  unfold parse_exp. destruct s as [|c s]; [intros H; apply pair_inj in H as [<- <-]; split; [reflexivity | left; reflexivity]|].
  destruct (beqb c "e"%byte || beqb c "E"%byte) eqn:E; [|intros H; apply pair_inj in H as [<- <-]; split; [reflexivity | left; reflexivity]].
  destruct (parse_sign s) as [g s''] eqn:EG. destruct (span_digits s'') as [[|x d] q] eqn:ES; intros H; apply pair_inj in H as [<- <-]; [split; [reflexivity | left; reflexivity]|].
  apply parse_sign_sound in EG as [-> HG]. apply span_digits_sound in ES as [-> HF]. split; [cbn [app]; rewrite <- app_assoc; reflexivity|]. right.
  exists c, g, (x :: d). split; [reflexivity|]. split; [apply orb_true_iff in E as [E|E]; apply beqb_eq in E as ->; cbn; tauto|]. split; [exact HG|]. split; [discriminate | exact HF].
Qed.
Lemma finish_sound g d n s v r : In g [[]; [x2d]] -> (exists m, decimal d m /\ ((g = [] /\ n = m) \/ (g = [x2d] /\ n = - m))) -> finish_number g d n s = (v, r) ->
  exists q, s = q ++ r /\ jvalue (g ++ d ++ q) v.
Proof.
  intros HG (m & HD & HN). unfold finish_number. destruct (parse_frac s) as [f r1] eqn:E1. destruct (parse_exp r1) as [e r2] eqn:E2. apply parse_frac_sound in E1 as [-> HF]. apply parse_exp_sound in E2 as [-> HE].
  destruct (f ++ e) as [|x fe] eqn:E; intros H; apply pair_inj in H as [<- <-].
  - apply app_eq_nil in E as [-> ->]. exists []. split; [reflexivity|]. rewrite app_nil_r. apply value_number. destruct HN as [[-> ->]|[-> ->]]; [left; exact HD | right; exists d, m; split; [reflexivity | split; [exact HD | reflexivity]]].
  - exists (x :: fe). split; [rewrite <- E, <- app_assoc; reflexivity|]. apply value_float. exists g, d, m, f, e. rewrite E. repeat (split; [assumption || reflexivity|]). discriminate.
Qed.
Lemma firstn_front (p r : str) : firstn (length (p ++ r) - length r) (p ++ r) = p.
Proof. rewrite app_length. replace (length p + length r - length r)%nat with (length p + 0)%nat by lia. rewrite firstn_app_2, firstn_O, app_nil_r. reflexivity. Qed.
Lemma parse_number_sound s v r : parse_number s = Ok (v, r) -> exists p, s = p ++ r /\ jvalue p v.
Proof.
  unfold parse_number. destruct s as [|c s]; [discriminate|]. destruct (beqb c "-"%byte) eqn:E.
  - apply beqb_eq in E as ->. intros H. apply bind_Ok in H as ([m r1] & H1 & H). apply parse_nat_sound in H1 as (p & -> & HD). rewrite firstn_front in H. apply Ok_inj in H.
    apply finish_sound in H as (q & -> & HV); [|cbn; tauto | exists m; split; [exact HD | right; split; reflexivity]]. exists ([x2d] ++ p ++ q). split; [cbn [app]; rewrite <- app_assoc; reflexivity | exact HV].
  - intros H. apply bind_Ok in H as ([m r1] & H1 & H). apply parse_nat_sound in H1 as (p & EP & HD). rewrite EP, firstn_front in H. apply Ok_inj in H.
    apply finish_sound in H as (q & -> & HV); [|cbn; tauto | exists m; split; [exact HD | left; split; reflexivity]]. exists ([] ++ p ++ q). split; [rewrite EP; cbn [app]; rewrite <- app_assoc; reflexivity | exact HV].
Qed.
Lemma decimal_start p n : decimal p n -> exists c q, p = c :: q /\ digit c.
Proof. intros (H1 & H2 & _). destruct p as [|c q]; [congruence|]. inversion H2; subst. exists c, q. split; [reflexivity | assumption]. Qed.
Lemma end_stop r : num_end r -> stop r.
Proof. destruct r; [intros _; exact Logic.I | intros H; apply H]. Qed.
Lemma parse_exp_complete e r : expo e -> num_end r -> parse_exp (e ++ r) = (e, r).
Proof.
  intros (c & g & d & -> & HC & HG & HN & HF) HR. cbn [app parse_exp]. replace (beqb c "e"%byte || beqb c "E"%byte) with true by (cbn [In] in HC; destruct HC as [<-|[<-|[]]]; reflexivity).
  assert (ES : parse_sign ((g ++ d) ++ r) = (g, d ++ r)).
  { rewrite <- app_assoc. cbn [In] in HG. destruct HG as [<-|[<-|[<-|[]]]]; [|reflexivity | reflexivity]. cbn [app]. destruct d as [|x d]; [congruence|]. cbn [app parse_sign].
    inversion HF as [|? ? HX _]; subst. replace (beqb x "-"%byte || beqb x "+"%byte) with false; [reflexivity|]. symmetry. rewrite !beqb_ord. change (ord "-"%byte) with 45. change (ord "+"%byte) with 43. unfold digit in HX. lia. }
  rewrite ES, (span_digits_complete d r HF (end_stop r HR)). destruct d as [|x d]; [congruence|]. reflexivity.
Qed.
Lemma parse_exp_none r : num_end r -> parse_exp r = ([], r).
Proof. destruct r as [|c r]; [reflexivity|]. intros (_ & _ & H2 & H3). apply beqb_neq in H2, H3. cbn [parse_exp]. rewrite H2, H3. reflexivity. Qed.
Lemma finish_complete g d n f e r : (f = [] \/ frac f) -> (e = [] \/ expo e) -> f ++ e <> [] -> num_end r ->
  finish_number g d n (f ++ e ++ r) = (JFloat (g ++ d ++ f ++ e), r).
Proof.
  intros HF HE HN HR. assert (EE : parse_exp (e ++ r) = (e, r)) by (destruct HE as [->|HE]; [apply parse_exp_none, HR | apply parse_exp_complete; assumption]).
  assert (SE : stop (e ++ r)) by (destruct HE as [->|(c & g' & d' & -> & HC & _)]; [apply end_stop, HR | cbn [In] in HC; destruct HC as [<-|[<-|[]]]; reflexivity]).
  assert (EF : parse_frac (f ++ e ++ r) = (f, e ++ r)).
  { destruct HF as [->|(d' & -> & ND & HD)].
    - cbn [app] in *. destruct HE as [->|(c & g' & d' & -> & HC & _)]; [congruence|]. cbn [app parse_frac]. cbn [In] in HC. destruct HC as [<-|[<-|[]]]; reflexivity.
    - cbn [app parse_frac]. change (beqb x2e "."%byte) with true. cbn iota. rewrite (span_digits_complete d' _ HD SE). destruct d'; [congruence | reflexivity]. }
  unfold finish_number. rewrite EF, EE. destruct (f ++ e); [congruence | reflexivity].
Qed.
Lemma frac_expo_stop f e r : (f = [] \/ frac f) -> (e = [] \/ expo e) -> num_end r -> stop (f ++ e ++ r).
Proof.
  intros [->|(d & -> & _)] HE HR; [|reflexivity]. destruct HE as [->|(c & g' & d' & -> & HC & _)]; [apply end_stop, HR|]. cbn [In] in HC; destruct HC as [<-|[<-|[]]]; reflexivity.
Qed.
Lemma parse_number_complete p n r : number p n -> num_end r -> parse_number (p ++ r) = Ok (JInt n, r).
Proof.
  intros [H|(p' & m & -> & H & ->)] HR.
  - destruct (decimal_start _ _ H) as (c & q & -> & HD). cbn [app parse_number]. destruct (beqb c "-"%byte) eqn:E; [apply beqb_eq in E as ->; exfalso; revert HD; vm_compute; intuition discriminate|].
    change (c :: q ++ r) with ((c :: q) ++ r). rewrite (parse_nat_complete _ _ _ H (end_stop r HR)). cbn [bind]. rewrite finish_int by exact HR. reflexivity.
  - cbn [app parse_number]. change (beqb x2d "-"%byte) with true. cbn iota. rewrite (parse_nat_complete _ _ _ H (end_stop r HR)). cbn [bind]. rewrite finish_int by exact HR. reflexivity.
Qed.
Lemma parse_float_complete p r : float p -> num_end r -> parse_number (p ++ r) = Ok (JFloat p, r).
Proof.
  intros (g & d & n & f & e & -> & HG & HD & HF & HE & HN) HR. pose proof (frac_expo_stop f e r HF HE HR) as HS. destruct (decimal_start _ _ HD) as (c & q & EC & DC).
  cbn [In] in HG. destruct HG as [<-|[<-|[]]].
  - cbn [app]. rewrite <- !app_assoc. unfold parse_number. rewrite EC. cbn [app]. destruct (beqb c "-"%byte) eqn:E; [apply beqb_eq in E as ->; exfalso; revert DC; vm_compute; intuition discriminate|].
    change (c :: q ++ f ++ e ++ r) with ((c :: q) ++ f ++ e ++ r). rewrite <- EC, (parse_nat_complete _ _ _ HD HS). cbn [bind]. rewrite firstn_front, finish_complete by assumption. rewrite EC. reflexivity.
  - cbn [app]. rewrite <- !app_assoc. cbn [app parse_number]. change (beqb x2d "-"%byte) with true. cbn iota. rewrite (parse_nat_complete _ _ _ HD HS). cbn [bind]. rewrite firstn_front, finish_complete by assumption. reflexivity.
Qed.

(** ** White space *)
Lemma is_ws_spec c : is_ws c = true <-> In c [x20; x09; x0a; x0d].
Proof.
  unfold is_ws. rewrite !orb_true_iff, !beqb_eq. cbn [In]. split; [intros [[[->| ->]| ->]| ->]; tauto | intros [<-|[<-|[<-|[<-|[]]]]]; tauto].
Qed.
Lemma skip_ws_sound s : exists a, s = a ++ skip_ws s /\ ws a.
Proof.
  induction s as [|c s (a & IH & HA)]; [exists []; split; [reflexivity | constructor]|]. cbn [skip_ws]. destruct (is_ws c) eqn:E.
  - exists (c :: a). split; [cbn [app]; f_equal; exact IH | constructor; [apply is_ws_spec, E | exact HA]].
  - exists []. split; [reflexivity | constructor].
Qed.
Lemma skip_ws_app a s : ws a -> skip_ws (a ++ s) = skip_ws s.
Proof. induction 1 as [|c a H _ IH]; [reflexivity|]. cbn [app skip_ws]. apply is_ws_spec in H. rewrite H. exact IH. Qed.
Lemma skip_ws_stop s c r : s = c :: r -> is_ws c = false -> skip_ws s = s.
Proof. intros -> H. cbn [skip_ws]. rewrite H. reflexivity. Qed.
Lemma ws_end a c r : ws a -> val_end (c :: r) -> val_end (a ++ c :: r).
Proof.
  intros [|d a' H _] HC; [exact HC|]. cbn [app val_end]. cbn [In] in H. destruct H as [<-|[<-|[<-|[<-|[]]]]]; repeat split; discriminate.
Qed.
Lemma ws_end_nil a : ws a -> val_end a.
Proof. intros [|d a' H _]; [exact Logic.I|]. cbn [val_end]. cbn [In] in H. destruct H as [<-|[<-|[<-|[<-|[]]]]]; repeat split; discriminate. Qed.

(** ** Values *)
Scheme jvalue_mut := Induction for jvalue Sort Prop
with jelements_mut := Induction for jelements Sort Prop
with jmembers_mut := Induction for jmembers Sort Prop.
Combined Scheme json_mut from jvalue_mut, jelements_mut, jmembers_mut.

Lemma strip_one c s r : strip_prefix [c] s = Some r -> s = c :: r.
Proof. destruct s as [|d s]; [discriminate|]. cbn. destruct (beqb c d) eqn:E; [|discriminate]. apply beqb_eq in E as ->. intros H. apply Some_inj in H as ->. reflexivity. Qed.
Lemma strip_sound p : forall s r, strip_prefix p s = Some r -> s = p ++ r.
Proof.
  induction p as [|c p IH]; intros s r H; [cbn in H; apply Some_inj in H; exact H|]. destruct s as [|d s]; [discriminate|]. cbn in H. destruct (beqb c d) eqn:E; [|discriminate].
  apply beqb_eq in E as ->. cbn [app]. f_equal. apply IH, H.
Qed.

Lemma parse_sound f :
  (forall s v r, parse_value f s = Ok (v, r) -> exists p, s = p ++ r /\ jvalue p v) /\
  (forall s l r, parse_elements f s = Ok (l, r) -> exists p, s = p ++ x5d :: r /\ jelements p l) /\
  (forall s m r, parse_members f s = Ok (m, r) -> exists p, s = p ++ x7d :: r /\ jmembers p m).
Proof.
  induction f as [|f (IV & IE & IM)]; [repeat split; intros; discriminate|]. split; [|split].
  - intros s v r H. destruct s as [|c s]; [discriminate|]. cbn [parse_value] in H.
    destruct (beqb c """"%byte) eqn:E1.
    { apply beqb_eq in E1 as ->. apply bind_Ok in H as ([t r1] & H1 & H). apply Ok_inj in H. apply pair_inj in H as [<- <-]. apply parse_string_sound in H1 as (b & -> & HB).
      exists (x22 :: b ++ [x22]). split; [cbn [app]; rewrite <- app_assoc; reflexivity|]. apply value_string. exists b. split; [reflexivity | exact HB]. }
    destruct (beqb c "{"%byte) eqn:E2.
    { apply beqb_eq in E2 as ->. destruct (skip_ws_sound s) as (a & EA & HA). destruct (strip_prefix ["}"%byte] (skip_ws s)) as [r'|] eqn:E3.
      - apply strip_one in E3. apply Ok_inj in H. apply pair_inj in H as [<- <-]. exists (x7b :: a ++ [x7d]). split; [rewrite EA, E3; cbn [app]; rewrite <- app_assoc; reflexivity | apply value_empty_object, HA].
      - apply bind_Ok in H as ([m r1] & H1 & H). apply Ok_inj in H. apply pair_inj in H as [<- <-]. apply IM in H1 as (p & EP & HP).
        exists (x7b :: (a ++ p) ++ [x7d]). split; [rewrite EA, EP; cbn [app]; rewrite <- !app_assoc; reflexivity|]. apply value_object.
        destruct HP; rewrite app_assoc; constructor; try assumption; apply Forall_app; split; assumption. }
    destruct (beqb c "["%byte) eqn:E3.
    { apply beqb_eq in E3 as ->. destruct (skip_ws_sound s) as (a & EA & HA). destruct (strip_prefix ["]"%byte] (skip_ws s)) as [r'|] eqn:E4.
      - apply strip_one in E4. apply Ok_inj in H. apply pair_inj in H as [<- <-]. exists (x5b :: a ++ [x5d]). split; [rewrite EA, E4; cbn [app]; rewrite <- app_assoc; reflexivity | apply value_empty_array, HA].
      - apply bind_Ok in H as ([l r1] & H1 & H). apply Ok_inj in H. apply pair_inj in H as [<- <-]. apply IE in H1 as (p & EP & HP).
        exists (x5b :: (a ++ p) ++ [x5d]). split; [rewrite EA, EP; cbn [app]; rewrite <- !app_assoc; reflexivity|]. apply value_array.
        destruct HP; rewrite app_assoc; constructor; try assumption; apply Forall_app; split; assumption. }
    destruct (strip_prefix (bs "null") (c :: s)) as [r1|] eqn:S1; [apply strip_sound in S1; apply Ok_inj in H; apply pair_inj in H as [<- <-]; exists (bs "null"); split; [exact S1 | constructor]|].
    destruct (strip_prefix (bs "true") (c :: s)) as [r1|] eqn:S2; [apply strip_sound in S2; apply Ok_inj in H; apply pair_inj in H as [<- <-]; exists (bs "true"); split; [exact S2 | constructor]|].
    destruct (strip_prefix (bs "false") (c :: s)) as [r1|] eqn:S3; [apply strip_sound in S3; apply Ok_inj in H; apply pair_inj in H as [<- <-]; exists (bs "false"); split; [exact S3 | constructor]|].
    destruct (strip_prefix (bs "NaN") (c :: s)) as [r1|] eqn:S4; [apply strip_sound in S4; apply Ok_inj in H; apply pair_inj in H as [<- <-]; exists (bs "NaN"); split; [exact S4 | apply value_constant; cbn; tauto]|].
    destruct (strip_prefix (bs "Infinity") (c :: s)) as [r1|] eqn:S5; [apply strip_sound in S5; apply Ok_inj in H; apply pair_inj in H as [<- <-]; exists (bs "Infinity"); split; [exact S5 | apply value_constant; cbn; tauto]|].
    destruct (strip_prefix (bs "-Infinity") (c :: s)) as [r1|] eqn:S6; [apply strip_sound in S6; apply Ok_inj in H; apply pair_inj in H as [<- <-]; exists (bs "-Infinity"); split; [exact S6 | apply value_constant; cbn; tauto]|].
    apply parse_number_sound, H.
  - intros s l r H. cbn [parse_elements] in H. apply bind_Ok in H as ([v r1] & H1 & H). apply IV in H1 as (p & -> & HV). destruct (skip_ws_sound r1) as (b & EB & HB).
    destruct (skip_ws r1) as [|c r'] eqn:E; [discriminate|]. destruct (beqb c "]"%byte) eqn:E1.
    { apply beqb_eq in E1 as ->. apply Ok_inj in H. apply pair_inj in H as [<- <-]. exists ([] ++ p ++ b). split; [rewrite EB; cbn [app]; rewrite <- app_assoc; reflexivity | apply elements_one; [constructor | exact HV | exact HB]]. }
    destruct (beqb c ","%byte) eqn:E2; [|discriminate]. apply beqb_eq in E2 as ->. apply bind_Ok in H as ([l' r''] & H1 & H). apply Ok_inj in H. apply pair_inj in H as [<- <-].
    apply IE in H1 as (q & EQ & HQ). destruct (skip_ws_sound r') as (a & EA & HA). exists ([] ++ p ++ b ++ x2c :: (a ++ q)).
    split; [rewrite EB, EA, EQ; cbn [app]; rewrite <- !app_assoc; cbn [app]; rewrite <- !app_assoc; reflexivity|].
    apply elements_more; [constructor | exact HV | exact HB|]. destruct HQ; rewrite app_assoc; constructor; try assumption; apply Forall_app; split; assumption.
  - intros s m r H. cbn [parse_members] in H. destruct s as [|c s]; [discriminate|]. destruct (beqb c """"%byte) eqn:E0; [|discriminate]. apply beqb_eq in E0 as ->.
    apply bind_Ok in H as ([k r0] & H0 & H). apply parse_string_sound in H0 as (kb & -> & HK). destruct (skip_ws_sound r0) as (b & EB & HB). destruct (skip_ws r0) as [|c r1] eqn:E; [discriminate|].
    destruct (beqb c ":"%byte) eqn:E1; [|discriminate]. apply beqb_eq in E1 as ->. apply bind_Ok in H as ([v r2] & H1 & H). apply IV in H1 as (p & EP & HV). destruct (skip_ws_sound r1) as (cw & EC & HC).
    destruct (skip_ws_sound r2) as (d & ED & HD). destruct (skip_ws r2) as [|e r3] eqn:E2; [discriminate|]. assert (JK : jstring (x22 :: kb ++ [x22]) k) by (exists kb; split; [reflexivity | exact HK]).
    destruct (beqb e "}"%byte) eqn:E3.
    { apply beqb_eq in E3 as ->. apply Ok_inj in H. apply pair_inj in H as [<- <-]. exists ([] ++ (x22 :: kb ++ [x22]) ++ b ++ x3a :: cw ++ p ++ d).
      split; [|apply members_one; try assumption; constructor]. rewrite EB, EC, EP, ED. cbn [app]. repeat (rewrite <- !app_assoc; cbn [app]). reflexivity. }
    destruct (beqb e ","%byte) eqn:E4; [|discriminate]. apply beqb_eq in E4 as ->. apply bind_Ok in H as ([m' r''] & H1 & H). apply Ok_inj in H. apply pair_inj in H as [<- <-].
    apply IM in H1 as (q & EQ & HQ). destruct (skip_ws_sound r3) as (a & EA & HA). exists ([] ++ (x22 :: kb ++ [x22]) ++ b ++ x3a :: cw ++ p ++ d ++ x2c :: (a ++ q)).
    split; [rewrite EB, EC, EP, ED, EA, EQ; cbn [app]; repeat (rewrite <- !app_assoc; cbn [app]); reflexivity|].
    apply members_more; try assumption; [constructor|]. destruct HQ; rewrite app_assoc; constructor; try assumption; apply Forall_app; split; assumption.
Qed.

(** The first character of a value. *)
Definition start_char (c : byte) : Prop := val_start c \/ c = x4e \/ c = x49.
Lemma start_not_ws c : start_char c -> is_ws c = false.
Proof. intros [H|[->| ->]]; [apply val_start_not_ws, H | reflexivity | reflexivity]. Qed.
Lemma start_ne c : start_char c -> c <> x7d /\ c <> x5d.
Proof. intros [H|[->| ->]]; [apply val_start_ne, H | split; discriminate | split; discriminate]. Qed.
Lemma number_start p n : number p n -> exists c q, p = c :: q /\ (c = x2d \/ digit c).
Proof.
  intros [H|(p' & m & -> & H & _)]; [|exists x2d, p'; split; [reflexivity | left; reflexivity]].
  destruct (decimal_start _ _ H) as (c & q & -> & HD). exists c, q. split; [reflexivity | right; exact HD].
Qed.
Lemma float_start p : float p -> exists c q, p = c :: q /\ (c = x2d \/ digit c).
Proof.
  intros (g & d & n & f & e & -> & HG & HD & _). destruct (decimal_start _ _ HD) as (c & q & -> & HC). cbn [In] in HG. destruct HG as [<-|[<-|[]]].
  - exists c, (q ++ f ++ e). split; [reflexivity | right; exact HC].
  - eexists _, _. split; [reflexivity | left; reflexivity].
Qed.
Lemma num_start_char c : c = x2d \/ digit c -> start_char c.
Proof. intros [->|H]; left; [vm_compute; tauto | apply val_start_dec, H]. Qed.
Lemma value_start p v : jvalue p v -> exists c q, p = c :: q /\ start_char c.
Proof.
  intros H. inversion H as [| | |s n HN|s HF|s HC|s t HS|a HA|s l HE|a HA|s m HM]; subst; try (eexists _, _; split; [reflexivity | left; vm_compute; tauto]).
  - destruct (number_start _ _ HN) as (c & q & -> & HC). exists c, q. split; [reflexivity | apply num_start_char, HC].
  - destruct (float_start _ HF) as (c & q & -> & HC). exists c, q. split; [reflexivity | apply num_start_char, HC].
  - cbn [In constants] in HC. destruct HC as [<-|[<-|[<-|[]]]]; eexists _, _; (split; [reflexivity|]); [right; left; reflexivity | right; right; reflexivity | left; vm_compute; tauto].
  - destruct HS as (b & -> & _). eexists _, _. split; [reflexivity | left; vm_compute; tauto].
Qed.
Lemma value_skip p v s : jvalue p v -> skip_ws (p ++ s) = p ++ s.
Proof. intros H. destruct (value_start _ _ H) as (c & q & -> & HC). apply (skip_ws_stop _ c (q ++ s)); [reflexivity | apply start_not_ws, HC]. Qed.

Lemma number_value p v f r : (length p <= f)%nat -> (exists c q, p = c :: q /\ (c = x2d \/ digit c)) -> parse_number (p ++ r) = Ok (v, r) -> parse_value f (p ++ r) = Ok (v, r).
Proof.
  intros L (c & q & -> & DC) EN. destruct f; [cbn in L; lia|].
  assert (NE : forall d, ord d <> 45 -> ~ (48 <= ord d <= 57) -> c <> d).
  { intros d D1 D2 ->. destruct DC as [->|DC]; [apply D1; reflexivity | apply D2, DC]. }
  assert (NB : forall d, ord d <> 45 -> ~ (48 <= ord d <= 57) -> beqb c d = false) by (intros d D1 D2; apply beqb_neq, NE; assumption).
  cbn [app parse_value] in *. rewrite !NB by (cbv; try discriminate; intros [? ?]; tauto).
  rewrite (strip_none c _ (bs "null") "n"%byte eq_refl) by (apply NE; cbv; try discriminate; intros [? ?]; tauto).
  rewrite (strip_none c _ (bs "true") "t"%byte eq_refl) by (apply NE; cbv; try discriminate; intros [? ?]; tauto).
  rewrite (strip_none c _ (bs "false") "f"%byte eq_refl) by (apply NE; cbv; try discriminate; intros [? ?]; tauto).
  rewrite (strip_none c _ (bs "NaN") "N"%byte eq_refl) by (apply NE; cbv; try discriminate; intros [? ?]; tauto).
  rewrite (strip_none c _ (bs "Infinity") "I"%byte eq_refl) by (apply NE; cbv; try discriminate; intros [? ?]; tauto).
  assert (strip_prefix (bs "-Infinity") (c :: q ++ r) = None) as ->; [|exact EN].
  destruct (strip_prefix (bs "-Infinity") (c :: q ++ r)) as [x|] eqn:X; [|reflexivity]. exfalso. apply strip_sound in X. rewrite X in EN. discriminate EN.
Qed.

Lemma parse_complete :
  (forall p v, jvalue p v -> forall f r, (length p <= f)%nat -> val_end r -> parse_value f (p ++ r) = Ok (v, r)) /\
  (forall p l, jelements p l -> forall f r, (length p < f)%nat -> parse_elements f (skip_ws (p ++ x5d :: r)) = Ok (l, r) /\ strip_prefix ["]"%byte] (skip_ws (p ++ x5d :: r)) = None) /\
  (forall p m, jmembers p m -> forall f r, (length p < f)%nat -> parse_members f (skip_ws (p ++ x7d :: r)) = Ok (m, r) /\ strip_prefix ["}"%byte] (skip_ws (p ++ x7d :: r)) = None).
Proof.
  apply json_mut.
  - intros f r L _. destruct f; [cbn in L; lia|]. reflexivity.
  - intros f r L _. destruct f; [cbn in L; lia|]. reflexivity.
  - intros f r L _. destruct f; [cbn in L; lia|]. reflexivity.
  - intros s n HN f r L HR. apply number_value; [exact L | apply (number_start _ _ HN) | apply parse_number_complete; assumption].
  - intros s HF f r L HR. apply number_value; [exact L | apply (float_start _ HF) | apply parse_float_complete; assumption].
  - intros s HC f r L _. cbn [In constants] in HC. destruct HC as [<-|[<-|[<-|[]]]]; (destruct f; [cbn in L; lia|]); reflexivity.
  - intros s t (b & -> & HB) f r L _. destruct f; [cbn in L; lia|]. cbn [app parse_value]. change (beqb x22 """"%byte) with true. cbn iota. rewrite <- app_assoc. cbn [app].
    rewrite (parse_string_complete b t HB); [reflexivity|]. rewrite app_length. cbn [length]. lia.
  - intros a HA f r L _. destruct f; [cbn in L; lia|]. cbn [app parse_value]. change (beqb x5b """"%byte) with false. change (beqb x5b "{"%byte) with false. change (beqb x5b "["%byte) with true. cbn iota.
    rewrite <- app_assoc, skip_ws_app by exact HA. reflexivity.
  - intros s l HE IH f r L _. destruct f; [cbn in L; lia|]. cbn [length] in L. rewrite app_length in L. cbn [length] in L. cbn [app parse_value]. change (beqb x5b """"%byte) with false. change (beqb x5b "{"%byte) with false. change (beqb x5b "["%byte) with true. cbn iota.
    rewrite <- app_assoc. cbn [app]. destruct (IH f r ltac:(lia)) as [-> ->]. reflexivity.
  - intros a HA f r L _. destruct f; [cbn in L; lia|]. cbn [app parse_value]. change (beqb x7b """"%byte) with false. change (beqb x7b "{"%byte) with true. cbn iota.
    rewrite <- app_assoc, skip_ws_app by exact HA. reflexivity.
  - intros s m HE IH f r L _. destruct f; [cbn in L; lia|]. cbn [length] in L. rewrite app_length in L. cbn [length] in L. cbn [app parse_value]. change (beqb x7b """"%byte) with false. change (beqb x7b "{"%byte) with true. cbn iota.
    rewrite <- app_assoc. cbn [app]. destruct (IH f r ltac:(lia)) as [-> ->]. reflexivity.
  - intros a s v b HA HV IH HB f r L. rewrite !app_length in L. rewrite <- !app_assoc, skip_ws_app, (value_skip s v) by assumption. destruct f; [lia|].
    destruct (value_start _ _ HV) as (c & q & EC & HC). split; [|rewrite EC; apply (strip_none c _ _ x5d eq_refl); apply start_ne, HC].
    cbn [parse_elements]. rewrite IH; [|lia | apply ws_end; [exact HB | repeat split; discriminate]]. cbn [bind]. rewrite skip_ws_app by exact HB. reflexivity.
  - intros a s v b r0 l HA HV IH HB HE IHE f r L. rewrite !app_length in L. cbn [length] in L. rewrite <- !app_assoc, skip_ws_app, (value_skip s v) by assumption. destruct f; [lia|].
    destruct (value_start _ _ HV) as (c & q & EC & HC). split; [|rewrite EC; apply (strip_none c _ _ x5d eq_refl); apply start_ne, HC].
    cbn [parse_elements app]. rewrite IH; [|lia | apply ws_end; [exact HB | repeat split; discriminate]]. cbn [bind]. rewrite skip_ws_app by exact HB. cbn [skip_ws]. change (is_ws x2c) with false. cbn iota.
    change (beqb x2c "]"%byte) with false. change (beqb x2c ","%byte) with true. cbn iota. assert (LS : (0 < length s)%nat) by (rewrite EC; cbn [length]; lia). destruct (IHE f r ltac:(lia)) as [-> _]. reflexivity.
  - intros a k t b c s v d HA (kb & -> & HK) HB HC HV IH HD f r L. repeat (rewrite !app_length in L; cbn [length] in L). destruct f; [lia|].
    rewrite <- !app_assoc, skip_ws_app by exact HA. cbn [app skip_ws]. change (is_ws x22) with false. cbn iota. split; [|reflexivity]. cbn [parse_members]. change (beqb x22 """"%byte) with true. cbn iota.
    rewrite <- !app_assoc. cbn [app]. rewrite (parse_string_complete kb t HK) by (rewrite app_length; cbn [length]; lia). cbn [bind]. rewrite <- ?app_assoc, skip_ws_app by exact HB. cbn [app skip_ws]. change (is_ws x3a) with false. cbn iota.
    change (beqb x3a ":"%byte) with true. cbn iota. rewrite <- ?app_assoc, skip_ws_app, (value_skip s v) by assumption. rewrite IH; [|lia | apply ws_end; [exact HD | repeat split; discriminate]]. cbn [bind].
    rewrite skip_ws_app by exact HD. reflexivity.
  - intros a k t b c s v d r0 m HA (kb & -> & HK) HB HC HV IH HD HM IHM f r L. repeat (rewrite !app_length in L; cbn [length] in L). destruct f; [lia|].
    rewrite <- !app_assoc, skip_ws_app by exact HA. cbn [app skip_ws]. change (is_ws x22) with false. cbn iota. split; [|reflexivity]. cbn [parse_members]. change (beqb x22 """"%byte) with true. cbn iota.
    rewrite <- !app_assoc. cbn [app]. rewrite (parse_string_complete kb t HK) by (rewrite app_length; cbn [length]; lia). cbn [bind]. rewrite <- ?app_assoc, skip_ws_app by exact HB. cbn [app skip_ws]. change (is_ws x3a) with false. cbn iota.
    change (beqb x3a ":"%byte) with true. cbn iota. rewrite <- ?app_assoc, skip_ws_app, (value_skip s v) by assumption. cbn [app]. rewrite IH; [|lia | apply ws_end; [exact HD | repeat split; discriminate]]. cbn [bind].
    rewrite skip_ws_app by exact HD. cbn [skip_ws]. change (is_ws x2c) with false. cbn iota. change (beqb x2c "}"%byte) with false. change (beqb x2c ","%byte) with true. cbn iota.
    destruct (IHM f r ltac:(lia)) as [-> _]. reflexivity.
Qed.

Theorem loads_grammar s v : loads s = Ok v <-> json_text s v.
Proof.
  unfold loads. split.
  - intros H. apply bind_Ok in H as ([v' r] & H1 & H). destruct (skip_ws_sound s) as (a & EA & HA). apply (proj1 (parse_sound _)) in H1 as (p & EP & HV). destruct (skip_ws_sound r) as (b & EB & HB).
    destruct (skip_ws r); [|discriminate]. apply Ok_inj in H as <-. rewrite app_nil_r in EB. subst r. exists a, p, b. rewrite EA, EP. repeat split; assumption.
  - intros (a & x & b & -> & HA & HV & HB). rewrite skip_ws_app, (value_skip x v) by assumption. rewrite (proj1 parse_complete x v HV); [|rewrite !app_length; lia | apply ws_end_nil, HB]. cbn [bind].
    replace (skip_ws b) with ([] : str); [reflexivity|]. symmetry. rewrite <- (app_nil_r b), skip_ws_app by exact HB. reflexivity.
Qed.
