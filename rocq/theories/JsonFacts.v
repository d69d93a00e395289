(** * JsonFacts: [json.loads(json.dumps(v)) == v]. *)
From Coq Require Import Strings.String.
From Coq Require Import List ZArith NArith Bool Lia ZifyBool ZifyNat ZifyN.
From Coq.Init Require Import Byte.
From Verif Require Import PyBase PyFacts Json.
Import ListNotations.
Local Open Scope Z_scope.
Ltac Zify.zify_post_hook ::= Z.div_mod_to_equations.

(** ** Text that survives: Unicode, without a high surrogate directly before a low one
    (such a pair of escapes means a single character). *)
Definition high (c : N) : Prop := (55296 <= c <= 56319)%N.
Definition low (c : N) : Prop := (56320 <= c <= 57343)%N.

Fixpoint text_ok (t : text) : Prop :=
  match t with
  | [] => True
  | c :: t' => (c < 1114112)%N /\ (high c -> match t' with d :: _ => ~ low d | [] => True end) /\ text_ok t'
  end.

Section JsonInd.
  Variable P : json -> Prop.
  Hypothesis HN : P JNull.
  Hypothesis HB : forall b, P (JBool b).
  Hypothesis HI : forall n, P (JInt n).
  Hypothesis HF : forall s, P (JFloat s).
  Hypothesis HS : forall s, P (JStr s).
  Hypothesis HA : forall l, Forall P l -> P (JArr l).
  Hypothesis HO : forall m, Forall (fun p => P (snd p)) m -> P (JObj m).
  Fixpoint json_ind' (v : json) : P v :=
    match v with
    | JNull => HN
    | JBool b => HB b
    | JInt n => HI n
    | JFloat s => HF s
    | JStr s => HS s
    | JArr l => HA l ((fix go l : Forall P l := match l with
                       | [] => Forall_nil _
                       | v :: l' => Forall_cons _ (json_ind' v) (go l') end) l)
    | JObj m => HO m ((fix go m : Forall (fun p => P (snd p)) m := match m with
                       | [] => Forall_nil _
                       | p :: m' => Forall_cons _ (json_ind' (snd p)) (go m') end) m)
    end.
End JsonInd.

Fixpoint json_ok (v : json) : Prop :=
  match v with
  | JFloat _ => False
  | JStr s => text_ok s
  | JArr l => (fix go l := match l with [] => True | v :: l' => json_ok v /\ go l' end) l
  | JObj m => (fix go m := match m with [] => True | (k, v) :: m' => (text_ok k /\ json_ok v) /\ go m' end) m
  | _ => True
  end.

Lemma json_ok_arr l : json_ok (JArr l) <-> Forall json_ok l.
Proof.
  cbn [json_ok]. induction l as [|v l IH]; [split; constructor|].
  rewrite IH. split; [intros [? ?]; constructor; assumption | inversion 1; subst; split; assumption].
Qed.
Lemma json_ok_obj m : json_ok (JObj m) <-> Forall (fun p => text_ok (fst p) /\ json_ok (snd p)) m.
Proof.
  cbn [json_ok]. induction m as [|[k v] m IH]; [split; constructor|].
  rewrite IH. split; [intros [? ?]; constructor; assumption | inversion 1; subst; split; assumption].
Qed.

(** ** Characters *)

Lemma hex_val_digit n : (n < 16)%N -> hex_val (hex_digit n) = Some n.
Proof.
  intros H. assert (In n (map N.of_nat (seq 0 16))) as HI.
  { apply in_map_iff. exists (N.to_nat n). split; [lia|]. apply in_seq. lia. }
  cbn in HI. repeat (destruct HI as [<-|HI]; [vm_compute; reflexivity|]). destruct HI.
Qed.

Lemma u_escape_cons n s : u_escape n ++ s =
  "\"%byte :: "u"%byte :: [hex_digit (n / 4096 mod 16)%N; hex_digit (n / 256 mod 16)%N;
   hex_digit (n / 16 mod 16)%N; hex_digit (n mod 16)%N] ++ s.
Proof. reflexivity. Qed.

Lemma parse_hex4_ok n s : (n < 65536)%N ->
  parse_hex4 ([hex_digit (n / 4096 mod 16)%N; hex_digit (n / 256 mod 16)%N;
   hex_digit (n / 16 mod 16)%N; hex_digit (n mod 16)%N] ++ s) = Some (n, s).
Proof.
  intros H. cbn [app parse_hex4]. rewrite !hex_val_digit by lia. f_equal. f_equal. lia.
Qed.

(** What may follow an escaped high surrogate. *)
Definition no_low (s : str) : Prop :=
  forall u r, s = u_escape u ++ r -> (u < 65536)%N -> ~ low u.

(** The first characters of an escaped text. *)
Definition starts_u (s : str) : bool :=
  match s with a :: b :: _ => beqb a "\"%byte && beqb b "u"%byte | _ => false end.

Definition escapes (t : text) : str := concat (map escape_char t).

Lemma escape_char_cases c : (c < 1114112)%N ->
  (exists b, escape_char c = [b] /\ Z.of_N c = ord b /\ 32 <= ord b <= 126 /\ b <> """"%byte /\ b <> "\"%byte) \/
  (exists e, escape_char c = ["\"%byte; e] /\ e <> "u"%byte /\
     forall s f, parse_string (S f) ("\"%byte :: e :: s) = let* (t, r) := parse_string f s in Ok (c :: t, r)) \/
  ((c < 65536)%N /\ escape_char c = u_escape c) \/
  ((65536 <= c)%N /\ escape_char c =
     u_escape (55296 + (c - 65536) / 1024)%N ++ u_escape (56320 + (c - 65536) mod 1024)%N).
Proof.
  intros H. unfold escape_char.
  destruct (c =? 34)%N eqn:E1; [apply N.eqb_eq in E1 as ->; right; left; eexists; split; [reflexivity|]; split; [discriminate | reflexivity]|].
  destruct (c =? 92)%N eqn:E2; [apply N.eqb_eq in E2 as ->; right; left; eexists; split; [reflexivity|]; split; [discriminate | reflexivity]|].
  destruct (c =? 10)%N eqn:E3; [apply N.eqb_eq in E3 as ->; right; left; eexists; split; [reflexivity|]; split; [discriminate | reflexivity]|].
  destruct (c =? 13)%N eqn:E4; [apply N.eqb_eq in E4 as ->; right; left; eexists; split; [reflexivity|]; split; [discriminate | reflexivity]|].
  destruct (c =? 9)%N eqn:E5; [apply N.eqb_eq in E5 as ->; right; left; eexists; split; [reflexivity|]; split; [discriminate | reflexivity]|].
  destruct (c =? 12)%N eqn:E6; [apply N.eqb_eq in E6 as ->; right; left; eexists; split; [reflexivity|]; split; [discriminate | reflexivity]|].
  destruct (c =? 8)%N eqn:E7; [apply N.eqb_eq in E7 as ->; right; left; eexists; split; [reflexivity|]; split; [discriminate | reflexivity]|].
  destruct ((32 <=? c) && (c <=? 126))%N eqn:E8.
  { left. exists (chr (Z.of_N c)). split; [reflexivity|].
    assert (ord (chr (Z.of_N c)) = Z.of_N c) as EO by (apply ord_chr_small; lia).
    split; [lia|]. split; [lia|]. assert (ord """"%byte = 34 /\ ord "\"%byte = 92) as [O1 O2] by (split; reflexivity).
    split; intros C; rewrite C in EO; lia. }
  destruct (c <? 65536)%N eqn:E9; [right; right; left; split; [lia | reflexivity]|].
  right; right; right. split; [lia | reflexivity].
Qed.

Lemma beqb_refl c : beqb c c = true.
Proof. apply beqb_eq. reflexivity. Qed.

Lemma parse_string_plain f b s : 32 <= ord b <= 126 -> b <> """"%byte -> b <> "\"%byte ->
  parse_string (S f) (b :: s) = let* (t, r) := parse_string f s in Ok (Z.to_N (ord b) :: t, r).
Proof.
  intros H H1 H2. cbn [parse_string].
  apply beqb_neq in H1. apply beqb_neq in H2. rewrite H1, H2.
  replace (ord b <? 32) with false by lia. replace (ord b <? 128) with true by lia. reflexivity.
Qed.

Lemma parse_string_u f s : parse_string (S f) ("\"%byte :: "u"%byte :: s) =
  let* (u, r) := parse_u s in let* (t, rest) := parse_string f r in Ok (u :: t, rest).
Proof. reflexivity. Qed.

(** What follows a high surrogate in the output of [dump_string]. *)
Lemma surrogate_split c : (65536 <= c)%N -> (c < 1114112)%N ->
  (55296 + (c - 65536) / 1024 < 65536)%N /\
  ((55296 <=? 55296 + (c - 65536) / 1024) && (55296 + (c - 65536) / 1024 <=? 56319))%N = true /\
  (56320 + (c - 65536) mod 1024 < 65536)%N /\
  ((56320 <=? 56320 + (c - 65536) mod 1024) && (56320 + (c - 65536) mod 1024 <=? 57343))%N = true /\
  (65536 + (55296 + (c - 65536) / 1024 - 55296) * 1024 +
          (56320 + (c - 65536) mod 1024 - 56320) = c)%N.
Proof.
  intros H1 H2. pose proof (N.div_mod (c - 65536) 1024 ltac:(discriminate)) as HD.
  pose proof (N.mod_upper_bound (c - 65536) 1024 ltac:(discriminate)) as HU.
  generalize dependent ((c - 65536) / 1024)%N. generalize dependent ((c - 65536) mod 1024)%N. intros r Hr q HD.
  rewrite !andb_true_iff, !N.leb_le. repeat split; lia.
Qed.

Lemma cons2_inv (x y : byte) (s t : str) : x :: y :: s = x :: y :: t -> s = t.
Proof. intros H. injection H as ->. reflexivity. Qed.

Lemma after_high t rest : text_ok t -> (match t with d :: _ => ~ low d | [] => True end) ->
  forall a b s2, escapes t ++ """"%byte :: rest = a :: b :: s2 ->
    beqb a "\"%byte && beqb b "u"%byte = true ->
    exists l s3, parse_hex4 s2 = Some (l, s3) /\ ~ low l.
Proof.
  intros HT HL a b s2 E Hab. apply andb_prop in Hab as [Ha Hb].
  apply beqb_eq in Ha, Hb. subst a b.
  destruct t as [|c t]; [cbn in E; discriminate E|].
  cbn [text_ok] in HT. destruct HT as (Hc & _ & _).
  unfold escapes in E. cbn [map concat] in E. rewrite <- app_assoc in E.
  destruct (escape_char_cases c Hc) as [(x & Ex & _ & _ & _ & Hx)|[(e & Ex & He & _)|[[H1 Ex]|[H1 Ex]]]];
    rewrite Ex in E.
  - cbn [app] in E. injection E as Ea _. exfalso. exact (Hx Ea).
  - cbn [app] in E. injection E as Ea _. exfalso. exact (He Ea).
  - rewrite u_escape_cons in E. apply cons2_inv in E. exists c, (concat (map escape_char t) ++ """"%byte :: rest).
    split; [rewrite <- E; apply parse_hex4_ok; assumption | assumption].
  - rewrite <- app_assoc, u_escape_cons in E. apply cons2_inv in E.
    eexists (55296 + (c - 65536) / 1024)%N, _. split; [rewrite <- E; apply parse_hex4_ok; apply (surrogate_split c H1 Hc)|].
    destruct (surrogate_split c H1 Hc) as (_ & B2 & _). apply andb_true_iff in B2 as [_ B2]. apply N.leb_le in B2.
    unfold low. clear - B2. lia.
Qed.

Lemma parse_string_ok t : text_ok t -> forall f rest, (length t < f)%nat ->
  parse_string f (escapes t ++ """"%byte :: rest) = Ok (t, rest).
Proof.
  induction t as [|c t IH]; intros HT f rest Hf; destruct f as [|f]; try (cbn in Hf; lia); [reflexivity|].
  pose proof HT as HT0. cbn [text_ok] in HT. destruct HT as (Hc & HH & HT).
  cbn [length] in Hf. specialize (IH HT f rest ltac:(lia)).
  unfold escapes. cbn [map concat]. rewrite <- app_assoc. fold (escapes t).
  destruct (escape_char_cases c Hc) as [(x & Ex & Eo & Hr & H1 & H2)|[(e & Ex & He & HP)|[[H1 Ex]|[H1 Ex]]]];
    rewrite Ex.
  - cbn [app]. rewrite parse_string_plain by assumption. rewrite IH. cbn [bind].
    rewrite <- Eo. rewrite N2Z.id. reflexivity.
  - cbn [app]. rewrite HP, IH. reflexivity.
  - rewrite u_escape_cons, parse_string_u.
    assert (parse_u ([hex_digit (c / 4096 mod 16)%N; hex_digit (c / 256 mod 16)%N;
       hex_digit (c / 16 mod 16)%N; hex_digit (c mod 16)%N] ++ escapes t ++ """"%byte :: rest)
       = Ok (c, escapes t ++ """"%byte :: rest)) as ->.
    { unfold parse_u. rewrite parse_hex4_ok by assumption.
      destruct ((55296 <=? c) && (c <=? 56319))%N eqn:EH; [|reflexivity].
      pose proof (after_high t rest HT (HH ltac:(unfold high; lia))) as AH.
      destruct (escapes t ++ """"%byte :: rest) as [|a [|b s2]]; [reflexivity | reflexivity |].
      destruct (beqb a "\"%byte && beqb b "u"%byte) eqn:Eab; [|reflexivity].
      destruct (AH a b s2 eq_refl Eab) as (l & s3 & -> & Hl).
      replace ((56320 <=? l) && (l <=? 57343))%N with false; [reflexivity|]. unfold low in Hl. lia. }
    cbn [bind]. rewrite IH. reflexivity.
  - rewrite <- app_assoc, u_escape_cons, parse_string_u.
    destruct (surrogate_split c H1 Hc) as (B1 & B2 & B3 & B4 & B5).
    unfold parse_u. rewrite parse_hex4_ok by exact B1.
    rewrite B2.
    rewrite u_escape_cons. rewrite !beqb_refl. cbn [andb].
    rewrite parse_hex4_ok by exact B3.
    rewrite B4.
    cbn [bind]. rewrite IH. cbn [bind]. rewrite B5. reflexivity.
Qed.

Lemma escapes_length t : (length t <= length (escapes t))%nat.
Proof.
  induction t as [|c t IH]; [cbn; lia|]. unfold escapes in *. cbn [map concat]. rewrite app_length.
  assert (1 <= length (escape_char c))%nat.
  { unfold escape_char, u_escape. repeat (match goal with |- context [if ?b then _ else _] => destruct b end);
      cbn; lia. }
  cbn [length]. lia.
Qed.

Lemma dump_string_parse t rest : text_ok t ->
  parse_string (S (length (escapes t ++ """"%byte :: rest))) (escapes t ++ """"%byte :: rest) = Ok (t, rest).
Proof.
  intros H. apply parse_string_ok; [assumption|]. rewrite app_length. pose proof (escapes_length t). lia.
Qed.

(** ** Numbers *)

Lemma digits_app f n acc : digits f n acc = digits f n [] ++ acc.
Proof.
  revert n acc. induction f as [|f IH]; intros n acc; [reflexivity|]. cbn [digits]. cbv zeta.
  destruct (n <? 10); [reflexivity|]. rewrite IH. rewrite (IH (n / 10) [_]). rewrite <- app_assoc. reflexivity.
Qed.

Lemma digit_ord n : 0 <= n -> ord (chr (48 + n mod 10)) = 48 + n mod 10.
Proof. intros H. apply ord_chr_small. lia. Qed.

Lemma log2_div10 m : 10 <= m -> Z.log2 (m / 10) + 1 <= Z.log2 m.
Proof.
  intros E. assert (Z.log2 (m / 2) = Z.log2 m - 1).
  { rewrite <- Z.div2_div. rewrite Z.div2_spec. rewrite Z.log2_shiftr by lia.
    assert (1 <= Z.log2 m) by (apply Z.log2_le_pow2; lia). lia. }
  assert (Z.log2 (m / 10) <= Z.log2 (m / 2)) by (apply Z.log2_le_mono; lia). lia.
Qed.

Lemma digits_fuel : forall a b m, 0 <= m -> (Z.to_nat (Z.log2 m + 1) <= a)%nat -> (a <= b)%nat ->
  digits a m [] = digits b m [].
Proof.
  induction a as [|a IHa]; intros b m Hm Ha Hab.
  - pose proof (Z.log2_nonneg m). lia.
  - destruct b as [|b]; [lia|]. cbn [digits]. cbv zeta. destruct (m <? 10) eqn:E; [reflexivity|].
    rewrite digits_app, (digits_app b). f_equal. apply IHa; [lia| |lia].
    pose proof (log2_div10 m ltac:(lia)). pose proof (Z.log2_nonneg (m / 10)). lia.
Qed.

Lemma digits_unfold n : 0 <= n ->
  digits (Z.to_nat (Z.log2 n + 1)) n [] =
    if n <? 10 then [chr (48 + n)]
    else digits (Z.to_nat (Z.log2 (n / 10) + 1)) (n / 10) [] ++ [chr (48 + n mod 10)].
Proof.
  intros H.
  destruct (Z.to_nat (Z.log2 n + 1)) as [|g] eqn:Eg; [pose proof (Z.log2_nonneg n); lia|].
  cbn [digits]. cbv zeta. destruct (n <? 10) eqn:E.
  { rewrite Z.mod_small by lia. reflexivity. }
  rewrite digits_app. f_equal. symmetry. apply digits_fuel; [lia | lia |].
  pose proof (log2_div10 n ltac:(lia)). pose proof (Z.log2_nonneg (n / 10)). lia.
Qed.

Definition dec (n : Z) : str := digits (Z.to_nat (Z.log2 n + 1)) n [].

Lemma dec_unfold n : 0 <= n -> dec n = if n <? 10 then [chr (48 + n)] else dec (n / 10) ++ [chr (48 + n mod 10)].
Proof. apply digits_unfold. Qed.
Global Opaque dec.

Lemma nat_ind10 (P : Z -> Prop) : (forall n, 0 <= n < 10 -> P n) ->
  (forall n, 10 <= n -> P (n / 10) -> P n) -> forall n, 0 <= n -> P n.
Proof.
  intros H0 HS n Hn.
  assert (G : forall k m, 0 <= m < Z.of_nat k -> P m).
  { induction k as [|k IH]; intros m Hm; [lia|].
    destruct (Z_lt_le_dec m 10); [apply H0; lia|]. apply HS; [assumption|]. apply IH. lia. }
  apply (G (S (Z.to_nat n))). lia.
Qed.

Definition stop (s : str) : Prop := match s with c :: _ => is_digit c = false | [] => True end.

Lemma parse_digits_stop s acc : stop s -> parse_digits s acc = (acc, s).
Proof. destruct s as [|c s]; [reflexivity|]. cbn. intros ->. reflexivity. Qed.

Lemma is_digit_chr n : 0 <= n < 10 -> is_digit (chr (48 + n)) = true /\ ord (chr (48 + n)) = 48 + n.
Proof. intros H. assert (ord (chr (48 + n)) = 48 + n) by (apply ord_chr_small; lia). unfold is_digit. split; lia. Qed.

Lemma parse_digits_dec n : 0 <= n -> forall s acc, exists k,
  parse_digits (dec n ++ s) acc = parse_digits s (acc * k + n) /\ (acc = 0 -> acc * k = 0).
Proof.
  revert n. apply (nat_ind10 (fun n => forall s acc, exists k,
    parse_digits (dec n ++ s) acc = parse_digits s (acc * k + n) /\ (acc = 0 -> acc * k = 0))).
  - intros n Hn s acc. exists 10. rewrite dec_unfold by lia. replace (n <? 10) with true by lia.
    cbn [app parse_digits]. destruct (is_digit_chr n Hn) as [-> ->].
    split; [f_equal; lia | lia].
  - intros n Hn IH s acc. rewrite dec_unfold by lia. replace (n <? 10) with false by lia.
    rewrite <- app_assoc. destruct (IH ([chr (48 + n mod 10)] ++ s) acc) as (k & -> & Hk).
    exists (k * 10). split; [|intros ->; lia].
    cbn [app parse_digits]. destruct (is_digit_chr (n mod 10) ltac:(lia)) as [-> ->].
    f_equal. rewrite Z.mul_assoc. generalize (acc * k). intros z. lia.
Qed.

Lemma dec_first n : 0 < n -> exists c r, dec n = c :: r /\ 49 <= ord c <= 57.
Proof.
  intros H. assert (G : 0 <= n -> 0 < n -> exists c r, dec n = c :: r /\ 49 <= ord c <= 57); [|apply G; lia].
  clear H. revert n. apply (nat_ind10 (fun n => 0 < n -> exists c r, dec n = c :: r /\ 49 <= ord c <= 57)).
  - intros n Hn H. rewrite dec_unfold by lia. replace (n <? 10) with true by lia.
    eexists _, _. split; [reflexivity|]. destruct (is_digit_chr n Hn) as [_ ->]. lia.
  - intros n Hn IH _. destruct IH as (c & r & E & Hc); [lia|].
    rewrite dec_unfold by lia. replace (n <? 10) with false by lia. rewrite E.
    exists c, (r ++ [chr (48 + n mod 10)]). split; [reflexivity | assumption].
Qed.

(** What may follow a number. *)
Definition num_end (s : str) : Prop :=
  match s with
  | c :: _ => is_digit c = false /\ c <> "."%byte /\ c <> "e"%byte /\ c <> "E"%byte
  | [] => True
  end.

Lemma finish_int sg d n s : num_end s -> finish_number sg d n s = (JInt n, s).
Proof.
  unfold finish_number. destruct s as [|c s]; [reflexivity|]. intros (_ & H1 & H2 & H3).
  apply beqb_neq in H1, H2, H3. cbn [parse_frac parse_exp]. rewrite H1. cbn [parse_exp]. rewrite H2, H3. reflexivity.
Qed.

Lemma parse_nat_dec n s : 0 <= n -> num_end s -> parse_nat (dec n ++ s) = Ok (n, s).
Proof.
  intros Hn Hs.
  assert (Hst : stop s) by (destruct s; [exact I | apply Hs]).
  destruct (Z.eq_dec n 0) as [->|Hne].
  - rewrite dec_unfold by lia. reflexivity.
  - destruct (dec_first n ltac:(lia)) as (c & r & E & Hc).
    destruct (parse_digits_dec n Hn s 0) as (k & Ed & _).
    rewrite E in *. cbn [app] in *. unfold parse_nat.
    assert (Hc0 : beqb c "0"%byte = false).
    { apply beqb_neq. intros ->. change (ord "0"%byte) with 48 in Hc. lia. }
    rewrite Hc0. replace (is_digit c) with true by (unfold is_digit; lia).
    rewrite Ed. rewrite parse_digits_stop by assumption. f_equal.
Qed.

Lemma ord_minus : ord "-"%byte = 45. Proof. reflexivity. Qed.

Lemma int_to_str_dec n : int_to_str n = if n <? 0 then "-"%byte :: dec (- n) else dec n.
Proof. Transparent dec. reflexivity. Opaque dec. Qed.

Lemma parse_number_ok n s : num_end s -> parse_number (int_to_str n ++ s) = Ok (JInt n, s).
Proof.
  intros Hs. rewrite int_to_str_dec. destruct (n <? 0) eqn:E.
  - cbn [app parse_number]. rewrite beqb_refl. rewrite parse_nat_dec by (assumption || lia).
    cbn [bind]. rewrite finish_int by assumption. do 3 f_equal. lia.
  - assert (exists c r, dec n = c :: r /\ 48 <= ord c <= 57) as (c & r & Ec & Hc).
    { destruct (Z.eq_dec n 0) as [->|].
      - rewrite dec_unfold by lia. eexists _, _. split; [reflexivity|].
        cbv. split; discriminate.
      - destruct (dec_first n ltac:(lia)) as (c & r & -> & ?). exists c, r. split; [reflexivity | lia]. }
    pose proof (parse_nat_dec n s ltac:(lia) Hs) as EP.
    rewrite Ec in *. cbn [app] in *. unfold parse_number.
    assert (Hcm : beqb c "-"%byte = false).
    { apply beqb_neq. intros ->. rewrite ord_minus in Hc. lia. }
    rewrite Hcm, EP. cbn [bind]. rewrite finish_int by assumption. reflexivity.
Qed.

(** ** Values *)

Definition elems (first : bool) : list json -> str :=
  (fix go (first : bool) (l : list json) : str :=
         match l with
         | [] => []
         | v :: l' => sep first ++ dumps v ++ go false l'
         end) first.
Definition members (first : bool) : list (text * json) -> str :=
      (fix go (first : bool) (m : list (text * json)) : str :=
         match m with
         | [] => []
         | (k, v) :: m' => sep first ++ dump_string k ++ [":"; " "]%byte ++ dumps v ++ go false m'
         end) first.

Lemma dumps_arr l : dumps (JArr l) = ["["%byte] ++ elems true l ++ ["]"%byte].
Proof. reflexivity. Qed.
Lemma dumps_obj m : dumps (JObj m) = ["{"%byte] ++ members true m ++ ["}"%byte].
Proof. reflexivity. Qed.
Lemma elems_cons f v l : elems f (v :: l) = sep f ++ dumps v ++ elems false l.
Proof. reflexivity. Qed.
Lemma members_cons f k v m :
  members f ((k, v) :: m) = sep f ++ dump_string k ++ [":"; " "]%byte ++ dumps v ++ members false m.
Proof. reflexivity. Qed.

(** The first character of a printed value. *)
Definition val_start (c : byte) : Prop := In c (bs "{[""tfn-0123456789").

Lemma val_start_dec c : 48 <= ord c <= 57 -> val_start c.
Proof.
  intros H. rewrite <- (chr_ord c).
  assert (In (ord c) (map Z.of_nat (seq 48 10))) as HI.
  { apply in_map_iff. exists (Z.to_nat (ord c)). split; [lia|]. apply in_seq. lia. }
  revert HI. generalize (ord c). intros z HI. cbn in HI.
  unfold val_start. repeat (destruct HI as [<-|HI]; [vm_compute; tauto|]). destruct HI.
Qed.

Lemma dumps_start v : json_ok v -> exists c r, dumps v = c :: r /\ val_start c.
Proof.
  destruct v as [|[|]|n|s|s|l|m]; intros HO; cbn [dumps json_ok] in *; try contradiction; try (eexists _, _; split; [reflexivity|]; vm_compute; tauto).
  rewrite int_to_str_dec. destruct (n <? 0) eqn:E.
  - eexists _, _. split; [reflexivity|]. vm_compute. tauto.
  - destruct (Z.eq_dec n 0) as [->|].
    + rewrite dec_unfold by lia. eexists _, _. split; [reflexivity|]. vm_compute. tauto.
    + destruct (dec_first n ltac:(lia)) as (c & r & -> & ?). exists c, r.
      split; [reflexivity | apply val_start_dec; lia].
Qed.

Lemma val_start_not_ws c : val_start c -> is_ws c = false.
Proof.
  unfold val_start. cbn. intros H. repeat (destruct H as [<-|H]; [reflexivity|]). destruct H.
Qed.
Lemma val_start_ne c : val_start c -> c <> "}"%byte /\ c <> "]"%byte.
Proof.
  unfold val_start. cbn. intros H. repeat (destruct H as [<-|H]; [split; discriminate|]). destruct H.
Qed.

Lemma skip_ws_start c s : is_ws c = false -> skip_ws (c :: s) = c :: s.
Proof. cbn. intros ->. reflexivity. Qed.

Lemma strip_prefix_ok p s : strip_prefix p (p ++ s) = Some s.
Proof. induction p as [|a p IH]; [reflexivity|]. cbn. rewrite beqb_refl. exact IH. Qed.

Lemma dumps_skip v s : json_ok v -> skip_ws (dumps v ++ s) = dumps v ++ s.
Proof.
  intros HO. destruct (dumps_start v HO) as (c & r & E & H). rewrite E. cbn [app].
  apply skip_ws_start, val_start_not_ws. assumption.
Qed.

(** What may follow a value. *)
Definition val_end (s : str) : Prop :=
  match s with
  | c :: _ => is_digit c = false /\ c <> "."%byte /\ c <> "e"%byte /\ c <> "E"%byte
  | [] => True
  end.

Lemma strip_prefix_inv p : forall s r, strip_prefix p s = Some r -> s = p ++ r.
Proof.
  induction p as [|c p IH]; intros s r H; [injection H as ->; reflexivity|]. destruct s as [|d s]; [discriminate|]. cbn in H. destruct (beqb c d) eqn:E; [|discriminate].
  apply beqb_eq in E as ->. cbn [app]. f_equal. apply IH, H.
Qed.
Lemma strip_none c s p a : p = a :: tl p -> c <> a -> strip_prefix p (c :: s) = None.
Proof. intros -> H. cbn. replace (beqb a c) with false; [reflexivity|]. symmetry. apply beqb_neq. congruence. Qed.

Lemma num_first n : exists c r, int_to_str n = c :: r /\ (ord c = 45 \/ 48 <= ord c <= 57).
Proof.
  rewrite int_to_str_dec. destruct (n <? 0) eqn:E.
  - eexists _, _. split; [reflexivity|]. left. reflexivity.
  - destruct (Z.eq_dec n 0) as [->|].
    + rewrite dec_unfold by lia. eexists _, _. split; [reflexivity|]. right. cbv. split; discriminate.
    + destruct (dec_first n ltac:(lia)) as (c & r & -> & ?). exists c, r. split; [reflexivity|]. right. lia.
Qed.

Lemma parse_value_int f n s : num_end s -> parse_value (S f) (int_to_str n ++ s) = Ok (JInt n, s).
Proof.
  intros Hs. pose proof (parse_number_ok n s Hs) as EP.
  destruct (num_first n) as (c & r & E & Hc). rewrite E in *. cbn [app] in *. cbn [parse_value].
  assert (forall d, ord d <> 45 -> ~ (48 <= ord d <= 57) -> c <> d) as HN.
  { intros d H1 H2 ->. destruct Hc; contradiction. }
  assert (forall d, ord d <> 45 -> ~ (48 <= ord d <= 57) -> beqb c d = false) as HB.
  { intros d H1 H2. apply beqb_neq. apply HN; assumption. }
  rewrite !HB by (cbv; try discriminate; intros [? ?]; tauto).
  rewrite (strip_none c _ (bs "null") "n"%byte eq_refl) by (apply HN; cbv; try discriminate; intros [? ?]; tauto).
  rewrite (strip_none c _ (bs "true") "t"%byte eq_refl) by (apply HN; cbv; try discriminate; intros [? ?]; tauto).
  rewrite (strip_none c _ (bs "false") "f"%byte eq_refl) by (apply HN; cbv; try discriminate; intros [? ?]; tauto).
  rewrite (strip_none c _ (bs "NaN") "N"%byte eq_refl) by (apply HN; cbv; try discriminate; intros [? ?]; tauto).
  rewrite (strip_none c _ (bs "Infinity") "I"%byte eq_refl) by (apply HN; cbv; try discriminate; intros [? ?]; tauto).
  assert (strip_prefix (bs "-Infinity") (c :: r ++ s) = None) as ->.
  { destruct (strip_prefix (bs "-Infinity") (c :: r ++ s)) as [q|] eqn:X; [|reflexivity]. exfalso. apply strip_prefix_inv in X. rewrite X in EP. discriminate EP. }
  rewrite EP. reflexivity.
Qed.

Lemma parse_value_str f t s : text_ok t -> parse_value (S f) (dump_string t ++ s) = Ok (JStr t, s).
Proof.
  intros H. unfold dump_string. rewrite <- !app_assoc. fold (escapes t).
  cbn [app parse_value]. rewrite beqb_refl. rewrite dump_string_parse by assumption. reflexivity.
Qed.

Lemma val_end_comma s : val_end ([","; " "]%byte ++ s).
Proof. cbn. repeat split; discriminate. Qed.

Lemma parse_elements_ok l : Forall (fun v => json_ok v -> forall f s, (length (dumps v) <= f)%nat -> val_end s ->
    parse_value (S f) (dumps v ++ s) = Ok (v, s)) l -> Forall json_ok l ->
  forall v, (json_ok v -> forall f s, (length (dumps v) <= f)%nat -> val_end s ->
    parse_value (S f) (dumps v ++ s) = Ok (v, s)) -> json_ok v ->
  forall f s, (length (dumps v ++ elems false l) + 1 <= f)%nat ->
  parse_elements (S f) (dumps v ++ elems false l ++ ["]"%byte] ++ s) = Ok (v :: l, s).
Proof.
  induction l as [|w l IH]; intros HF HO v Hv Hvo f s Hf; cbn [parse_elements].
  - destruct f as [|f]; [lia|]. rewrite app_length in Hf.
    rewrite Hv; [|assumption|lia|cbn; repeat split; discriminate]. cbn [bind elems app].
    rewrite skip_ws_start by reflexivity. rewrite beqb_refl. reflexivity.
  - inversion HF as [|? ? Hw HF']; subst. inversion HO as [|? ? Hwo HO']; subst.
    destruct f as [|f]; [lia|]. rewrite !app_length in Hf.
    rewrite Hv; [|assumption|lia|cbn; repeat split; discriminate].
    cbn [bind]. rewrite elems_cons. cbn [sep]. rewrite <- !app_assoc. cbn [app].
    rewrite skip_ws_start by reflexivity.
    change (beqb ","%byte "]"%byte) with false. change (beqb ","%byte ","%byte) with true.
    change (skip_ws (" "%byte :: ?x)) with (skip_ws x). cbn iota.
    rewrite dumps_skip by assumption. change ("]"%byte :: s) with (["]"%byte] ++ s).
    rewrite IH; [reflexivity | assumption | assumption | assumption | assumption |].
    rewrite elems_cons, !app_length in Hf. cbn [sep length] in Hf. rewrite app_length. lia.
Qed.

Lemma parse_members_ok m : Forall (fun p => json_ok (snd p) -> forall f s, (length (dumps (snd p)) <= f)%nat -> val_end s ->
    parse_value (S f) (dumps (snd p) ++ s) = Ok (snd p, s)) m ->
  Forall (fun p => text_ok (fst p) /\ json_ok (snd p)) m ->
  forall k v, (json_ok v -> forall f s, (length (dumps v) <= f)%nat -> val_end s ->
    parse_value (S f) (dumps v ++ s) = Ok (v, s)) -> text_ok k -> json_ok v ->
  forall f s, (length (dumps v ++ members false m) + 1 <= f)%nat ->
  parse_members (S f) (dump_string k ++ [":"; " "]%byte ++ dumps v ++ members false m ++ ["}"%byte] ++ s)
    = Ok ((k, v) :: m, s).
Proof.
  induction m as [|[k' w] m IH]; intros HF HO k v Hv Hk Hvo f s Hf.
  - cbn [members app].
    unfold dump_string at 1. rewrite <- !app_assoc. fold (escapes k). cbn [app]. cbn [parse_members].
    rewrite beqb_refl. rewrite dump_string_parse by assumption. cbn [bind].
    rewrite skip_ws_start by reflexivity. rewrite beqb_refl.
    assert (skip_ws (" "%byte :: dumps v ++ "}"%byte :: s) = dumps v ++ "}"%byte :: s) as ->.
    { cbn [skip_ws]. change (is_ws " "%byte) with true. cbn iota. apply dumps_skip. assumption. }
    destruct f as [|f]; [lia|]. rewrite app_length in Hf.
    rewrite Hv; [|assumption|lia|cbn; repeat split; discriminate]. cbn [bind].
    rewrite skip_ws_start by reflexivity. rewrite beqb_refl. reflexivity.
  - inversion HF as [|? ? Hw HF']; subst. inversion HO as [|? ? [Hko Hwo] HO']; subst. cbn [fst snd] in *.
    unfold dump_string at 1. rewrite <- !app_assoc. fold (escapes k). cbn [app]. cbn [parse_members].
    rewrite beqb_refl. rewrite dump_string_parse by assumption. cbn [bind].
    rewrite skip_ws_start by reflexivity. rewrite beqb_refl.
    assert (forall x, skip_ws (" "%byte :: dumps v ++ x) = dumps v ++ x) as ->.
    { intros x. cbn [skip_ws]. change (is_ws " "%byte) with true. cbn iota. apply dumps_skip. assumption. }
    destruct f as [|f]; [lia|]. rewrite !app_length in Hf.
    rewrite members_cons in *. cbn [sep] in *. rewrite <- !app_assoc.
    rewrite Hv; [|assumption|lia|cbn; repeat split; discriminate]. cbn [bind app].
    rewrite skip_ws_start by reflexivity.
    change (beqb ","%byte "}"%byte) with false. change (beqb ","%byte ","%byte) with true. cbn iota.
    assert (forall x, skip_ws (" "%byte :: dump_string k' ++ x) = dump_string k' ++ x) as ->.
    { intros x. reflexivity. }
    specialize (IH HF' HO' k' w Hw Hko Hwo f s). cbn [app] in IH.
    rewrite IH; [reflexivity|]. rewrite app_length.
    rewrite !app_length in Hf. cbn [length] in Hf. lia.
Qed.

Lemma parse_value_ok v : json_ok v -> forall f s, (length (dumps v) <= f)%nat -> val_end s ->
  parse_value (S f) (dumps v ++ s) = Ok (v, s).
Proof.
  induction v as [|b|n|t|t|l IH|m IH] using json_ind'; intros HO f s Hf Hs.
  - reflexivity.
  - destruct b; reflexivity.
  - cbn [dumps]. apply parse_value_int. exact Hs.
  - destruct HO.
  - cbn [dumps]. apply parse_value_str. exact HO.
  - apply json_ok_arr in HO. rewrite dumps_arr in *. destruct l as [|v l]; [reflexivity|].
    inversion IH as [|? ? Hv IH']; subst. inversion HO as [|? ? Hvo HO']; subst.
    rewrite elems_cons in *. cbn [sep app] in *. rewrite <- !app_assoc.
    cbn [parse_value]. change (beqb "["%byte """"%byte) with false.
    change (beqb "["%byte "{"%byte) with false. rewrite beqb_refl. cbn iota.
    rewrite dumps_skip by assumption. 
    destruct (dumps_start v Hvo) as (c & r & E & Hc). 
    assert (strip_prefix ["]"%byte] (dumps v ++ elems false l ++ ["]"%byte] ++ s) = None) as ->.
    { rewrite E. cbn [app]. eapply strip_none; [reflexivity | apply val_start_ne; assumption]. }
    cbn [length] in Hf. rewrite !app_length in Hf. cbn [length] in Hf.
    destruct f as [|f]; [lia|]. rewrite parse_elements_ok; try assumption; [reflexivity|].
    rewrite app_length. lia.
  - apply json_ok_obj in HO. rewrite dumps_obj in *. destruct m as [|[k v] m]; [reflexivity|].
    inversion IH as [|? ? Hv IH']; subst. inversion HO as [|? ? [Hko Hvo] HO']; subst. cbn [fst snd] in *.
    rewrite members_cons in *. cbn [sep] in *. rewrite <- !app_assoc. cbn [app].
    cbn [parse_value]. change (beqb "{"%byte """"%byte) with false. rewrite beqb_refl. cbn iota.
    assert (forall x, skip_ws (dump_string k ++ x) = dump_string k ++ x) as -> by reflexivity.
    assert (forall x, strip_prefix ["}"%byte] (dump_string k ++ x) = None) as -> by reflexivity.
    cbn [app] in Hf. cbn [length] in Hf. rewrite !app_length in Hf. cbn [length] in Hf.
    rewrite !app_length in Hf. cbn [length] in Hf.
    destruct f as [|f]; [lia|].
    pose proof (parse_members_ok m IH' HO' k v Hv Hko Hvo f s) as PM. cbn [app] in PM.
    rewrite PM; [reflexivity|]. rewrite app_length. lia.
Qed.

Theorem loads_dumps v : json_ok v -> loads (dumps v) = Ok v.
Proof.
  intros H. unfold loads. rewrite <- (app_nil_r (dumps v)) at 2. rewrite dumps_skip by assumption.
  rewrite parse_value_ok; [reflexivity | assumption | lia | exact I].
Qed.

(** ** Byte strings read as text. *)

Lemma text_of_str_ok s : text_ok (text_of_str s).
Proof.
  induction s as [|c s IH]; [exact I|]. cbn [text_of_str map text_ok].
  assert (Byte.to_N c < 256)%N by (pose proof (ord_range c); unfold ord in *; lia).
  split; [lia|]. split; [unfold high; lia | exact IH].
Qed.

Lemma tx_ok s : text_ok (tx s).
Proof. apply text_of_str_ok. Qed.

Lemma jobj_ok m : Forall (fun p => json_ok (snd p)) m -> json_ok (jobj m).
Proof.
  intros H. apply json_ok_obj. apply Forall_map. eapply Forall_impl; [|exact H].
  intros p Hp. cbn [fst snd]. split; [apply tx_ok | assumption].
Qed.

(** ** Every printed value is ASCII and its length bounds it. *)
Definition ascii (s : str) : Prop := Forall (fun c => ord c < 128) s.
