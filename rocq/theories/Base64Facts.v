(** * Base64Facts: proofs about web-safe Base64. *)
From Coq Require Import List ZArith NArith Bool Lia ZifyBool ZifyNat ZifyN.
From Coq.Init Require Import Byte.
From Verif Require Import PyBase PyFacts Base64.
Import ListNotations.
Local Open Scope Z_scope.
Ltac Zify.zify_post_hook ::= Z.div_mod_to_equations.

(** ** Characters *)
Definition in64 (v : Z) : Prop := 0 <= v < 64.

(** A bounded check over 0..63. *)
Lemma forall64 (P : Z -> bool) :
  forallb P (map Z.of_nat (seq 0 64)) = true -> forall v, in64 v -> P v = true.
Proof.
  intros H v Hv. rewrite forallb_forall in H. apply H.
  apply in_map_iff. exists (Z.to_nat v). split; [unfold in64 in *; lia|].
  apply in_seq. unfold in64 in *; lia.
Qed.

Definition ws_char (v : Z) : byte := to_urlsafe (b64_char v).

Lemma ws_char_ok v : in64 v ->
  beqb (ws_char v) "="%byte = false /\ beqb (of_urlsafe (ws_char v)) "="%byte = false /\
  b64_val (of_urlsafe (ws_char v)) = Some v /\
  is_eol (ws_char v) = false /\ is_space (ws_char v) = false /\ ord (ws_char v) < 128.
Proof.
  intros Hv.
  pose (P := fun v => negb (beqb (ws_char v) "="%byte) && negb (beqb (of_urlsafe (ws_char v)) "="%byte)
     && (match b64_val (of_urlsafe (ws_char v)) with Some w => w =? v | None => false end)
     && negb (is_eol (ws_char v)) && negb (is_space (ws_char v)) && (ord (ws_char v) <? 128)).
  assert (H : P v = true) by (apply forall64; [vm_compute; reflexivity | assumption]).
  unfold P in H.
  apply andb_true_iff in H as [H H6]. apply andb_true_iff in H as [H H5].
  apply andb_true_iff in H as [H H4]. apply andb_true_iff in H as [H H3].
  apply andb_true_iff in H as [H1 H2].
  apply negb_true_iff in H1, H2, H4, H5.
  destruct (b64_val _); [|discriminate].
  repeat split; try assumption; try lia. f_equal. lia.
Qed.

(** The encoder as a list of 6-bit values. *)
Fixpoint six (s : str) : list Z :=
  match s with
  | a :: b :: c :: s' =>
      ord a / 4 :: (ord a mod 4) * 16 + ord b / 16
        :: (ord b mod 16) * 4 + ord c / 64 :: ord c mod 64 :: six s'
  | [a; b] => [ord a / 4; (ord a mod 4) * 16 + ord b / 16; (ord b mod 16) * 4]
  | [a] => [ord a / 4; (ord a mod 4) * 16]
  | [] => []
  end.

(** Regrouping 6-bit values into bytes. *)
Fixpoint regroup (vs : list Z) : str :=
  match vs with
  | a :: b :: c :: d :: vs' =>
      chr (a * 4 + b / 16) :: chr ((b mod 16) * 16 + c / 4) :: chr ((c mod 4) * 64 + d) :: regroup vs'
  | [a; b; c] => [chr (a * 4 + b / 16); chr ((b mod 16) * 16 + c / 4)]
  | [a; b] => [chr (a * 4 + b / 16)]
  | _ => []
  end.

(** Induction in steps of three and four. *)
Lemma ind3 {A} (P : list A -> Prop) :
  P [] -> (forall a, P [a]) -> (forall a b, P [a; b]) ->
  (forall a b c l, P l -> P (a :: b :: c :: l)) -> forall l, P l.
Proof.
  intros H0 H1 H2 H3.
  assert (forall l, P l /\ (forall a, P (a :: l)) /\ (forall a b, P (a :: b :: l))) as H.
  { induction l as [|x l (I1 & I2 & I3)].
    - auto.
    - split; [apply I2|]. split; [intros a; apply I3|]. intros a b. apply H3. exact I1. }
  intros l. apply H.
Qed.

Lemma ind4 {A} (P : list A -> Prop) :
  P [] -> (forall a, P [a]) -> (forall a b, P [a; b]) -> (forall a b c, P [a; b; c]) ->
  (forall a b c d l, P l -> P (a :: b :: c :: d :: l)) -> forall l, P l.
Proof.
  intros H0 H1 H2 H3 H4.
  assert (forall l, P l /\ (forall a, P (a :: l)) /\ (forall a b, P (a :: b :: l)) /\
                    (forall a b c, P (a :: b :: c :: l))) as H.
  { induction l as [|x l (I1 & I2 & I3 & I4)].
    - auto.
    - split; [apply I2|]. split; [intros a; apply I3|]. split; [intros a b; apply I4|].
      intros a b c. apply H4. exact I1. }
  intros l. apply H.
Qed.

Lemma six_in64 s : Forall in64 (six s).
Proof.
  induction s as [|a|a b|a b c s IH] using ind3; cbn [six]; repeat constructor;
    try (pose proof (ord_range a)); try (pose proof (ord_range b)); try (pose proof (ord_range c));
    unfold in64; try lia; try assumption.
Qed.

Lemma regroup_six s : regroup (six s) = s.
Proof.
  induction s as [|a|a b|a b c s IH] using ind3; cbn [six regroup]; try reflexivity.
  - f_equal. apply ord_inj. rewrite ord_chr. pose proof (ord_range a). lia.
  - pose proof (ord_range a); pose proof (ord_range b).
    f_equal; [|f_equal]; apply ord_inj; rewrite ord_chr; lia.
  - pose proof (ord_range a); pose proof (ord_range b); pose proof (ord_range c).
    f_equal; [|f_equal; [|f_equal]]; try assumption; apply ord_inj; rewrite ord_chr; lia.
Qed.

Lemma six_length s : len (six s) = (4 * len s + 2) / 3.
Proof.
  induction s as [|a|a b|a b c s IH] using ind3; try reflexivity.
  cbn [six]. rewrite !len_cons. rewrite IH. lia.
Qed.

Lemma filter_all {A} (f : A -> bool) l : Forall (fun a => f a = true) l -> filter f l = l.
Proof. induction 1 as [|a l H _ IH]; cbn [filter]; [reflexivity|]. rewrite H, IH. reflexivity. Qed.

Lemma encode_six s : Base64WSEncode s = map ws_char (six s).
Proof.
  unfold Base64WSEncode.
  assert (E : forall v, in64 v -> negb (beqb (to_urlsafe (b64_char v)) "="%byte) = true).
  { intros v Hv. apply negb_true_iff. apply (ws_char_ok v Hv). }
  induction s as [|a|a b|a b c s IH] using ind3; cbn [b2a_base64 six map filter].
  - reflexivity.
  - pose proof (ord_range a).
    rewrite !E by (unfold in64; lia). reflexivity.
  - pose proof (ord_range a); pose proof (ord_range b).
    rewrite !E by (unfold in64; lia). reflexivity.
  - pose proof (ord_range a); pose proof (ord_range b); pose proof (ord_range c).
    rewrite !E by (unfold in64; lia). rewrite IH. reflexivity.
Qed.

(** ** The decoder *)

(** The 6-bit values of the alphabet characters of a text. *)
Fixpoint vals (s : str) : list Z :=
  match s with
  | [] => []
  | c :: s' => match b64_val c with Some v => v :: vals s' | None => vals s' end
  end.

Lemma b64_val_in64 c v : b64_val c = Some v -> in64 v.
Proof.
  unfold b64_val, in64. intros H.
  repeat match type of H with
  | (if ?b then _ else _) = _ => destruct b eqn:?
  end; inversion H; lia.
Qed.

Definition pad_free (s : str) : Prop := Forall (fun c => beqb c "="%byte = false) s.

Lemma a2b_step c s v q lb lc :
  b64_val c = Some v -> beqb c "="%byte = false ->
  a2b_loop (c :: s) q lb lc =
    (let quad' := (q + 1) mod 4 in
     let lchar' := lc * 64 + v in
     let lbits' := lb + 6 in
     if 8 <=? lbits' then
       let lb := lbits' - 8 in
       let* rest := a2b_loop s quad' lb (lchar' mod (2 ^ lb)) in
       Ok (chr (lchar' / 2 ^ lb) :: rest)
     else a2b_loop s quad' lbits' lchar').
Proof. intros Hv Hp. cbn [a2b_loop]. rewrite Hp, Hv. reflexivity. Qed.

(** Loop state reached after reading values [g] of the current group (0 to 3 of them). *)
Definition st_q (g : list Z) : Z := len g.
Definition st_lb (g : list Z) : Z :=
  match g with [] => 0 | [_] => 6 | [_; _] => 4 | _ => 2 end.
Definition st_lc (g : list Z) : Z :=
  match g with [] => 0 | [a] => a | [_; b] => b mod 16 | _ :: _ :: c :: _ => c mod 4 end.

(** The bytes completed when value [v] arrives in group [g]. *)
Definition emit (g : list Z) (v : Z) : str :=
  match g with
  | [] => []
  | [a] => [chr (a * 4 + v / 16)]
  | [_; b] => [chr ((b mod 16) * 16 + v / 4)]
  | _ :: _ :: c :: _ => [chr ((c mod 4) * 64 + v)]
  end.

Definition next_group (g : list Z) (v : Z) : list Z :=
  match g with [_; _; _] => [] | _ => g ++ [v] end.

Lemma a2b_step_group c s v g :
  (length g <= 3)%nat -> Forall in64 g -> in64 v ->
  b64_val c = Some v -> beqb c "="%byte = false ->
  a2b_loop (c :: s) (st_q g) (st_lb g) (st_lc g) =
    let* rest := a2b_loop s (st_q (next_group g v)) (st_lb (next_group g v)) (st_lc (next_group g v)) in
    Ok (emit g v ++ rest).
Proof.
  intros Hl Hg Hv Hc Hp. rewrite (a2b_step _ _ _ _ _ _ Hc Hp).
  assert (ID : forall r : res str, r = bind r (fun rest => Ok rest)) by (intros []; reflexivity).
  destruct g as [|x [|y [|z [|w g]]]]; cbn [length] in Hl; try lia; unfold st_q, len;
    cbn [st_lb st_lc next_group emit length app].
  - cbv zeta. change (8 <=? 0 + 6) with false. cbv iota.
    replace (0 * 64 + v) with v by lia. change ((Z.of_nat 0 + 1) mod 4) with (Z.of_nat 1).
    change (0 + 6) with 6. apply ID.
  - cbv zeta. change (8 <=? 6 + 6) with true. cbv iota. change (2 ^ (6 + 6 - 8)) with 16.
    replace ((x * 64 + v) / 16) with (x * 4 + v / 16) by lia.
    replace ((x * 64 + v) mod 16) with (v mod 16) by lia. reflexivity.
  - cbv zeta. change (8 <=? 4 + 6) with true. cbv iota. change (2 ^ (4 + 6 - 8)) with 4.
    replace ((y mod 16 * 64 + v) / 4) with (y mod 16 * 16 + v / 4) by lia.
    replace ((y mod 16 * 64 + v) mod 4) with (v mod 4) by lia. reflexivity.
  - cbv zeta. change (8 <=? 2 + 6) with true. cbv iota. change (2 ^ (2 + 6 - 8)) with 1.
    rewrite Z.div_1_r, Z.mod_1_r. reflexivity.
Qed.

(** The values in the last, incomplete group. *)
Fixpoint last_group (vs : list Z) : list Z :=
  match vs with
  | _ :: _ :: _ :: _ :: vs' => last_group vs'
  | _ => vs
  end.

Lemma last_group_bounds vs : (length (last_group vs) <= 3)%nat.
Proof. induction vs using ind4; cbn [last_group length]; lia. Qed.

Lemma last_group_len vs : len (last_group vs) = len vs mod 4.
Proof.
  induction vs using ind4; try reflexivity. cbn [last_group]. rewrite IHvs, !len_cons. lia.
Qed.

Lemma last_group_forall P vs : Forall P vs -> Forall P (last_group vs).
Proof.
  induction vs using ind4; intros H; try assumption. cbn [last_group]. apply IHvs.
  do 4 (inversion H as [|? ? ? H']; subst; clear H; rename H' into H). assumption.
Qed.

(** Bytes emitted by running values [vs] from group [g]. *)
Fixpoint run_out (g vs : list Z) : str :=
  match vs with [] => [] | v :: vs' => emit g v ++ run_out (next_group g v) vs' end.
Fixpoint run_end (g vs : list Z) : list Z :=
  match vs with [] => g | v :: vs' => run_end (next_group g v) vs' end.

Lemma next_group_bounds g v : (length g <= 3)%nat -> (length (next_group g v) <= 3)%nat.
Proof. destruct g as [|a [|b [|c [|]]]]; simpl; lia. Qed.
Lemma next_group_in64 g v : Forall in64 g -> in64 v -> Forall in64 (next_group g v).
Proof.
  intros Hg Hv. destruct g as [|a [|b [|c [|d g]]]]; cbn [next_group]; try (constructor; fail);
    apply Forall_app; split; auto.
Qed.

Lemma run_out_0 vs : run_out [] vs = regroup vs.
Proof.
  induction vs using ind4; try reflexivity.
  cbn [run_out emit next_group regroup app]. rewrite IHvs. reflexivity.
Qed.
Lemma run_end_0 vs : run_end [] vs = last_group vs.
Proof. induction vs using ind4; try reflexivity. cbn [run_end next_group last_group app]. assumption. Qed.

Lemma a2b_run s t g :
  (length g <= 3)%nat -> Forall in64 g -> pad_free s ->
  a2b_loop (s ++ t) (st_q g) (st_lb g) (st_lc g) =
    let* rest := a2b_loop t (st_q (run_end g (vals s))) (st_lb (run_end g (vals s)))
                   (st_lc (run_end g (vals s))) in
    Ok (run_out g (vals s) ++ rest).
Proof.
  revert g. induction s as [|c s IH]; intros g Hl Hg Hp; cbn [app vals run_end run_out].
  - destruct (a2b_loop t _ _ _); reflexivity.
  - inversion Hp as [|? ? Hc Hs]; subst.
    destruct (b64_val c) as [v|] eqn:Hv.
    + pose proof (b64_val_in64 _ _ Hv) as Hv64.
      rewrite (a2b_step_group c (s ++ t) v g) by assumption.
      rewrite IH by (auto using next_group_bounds, next_group_in64).
      rewrite bind_assoc. cbn [bind run_end run_out].
      destruct (a2b_loop t _ _ _); cbn [bind]; [rewrite app_assoc|]; reflexivity.
    + cbn [a2b_loop]. rewrite Hc, Hv. apply IH; assumption.
Qed.

Lemma a2b_run0 s t :
  pad_free s ->
  a2b_loop (s ++ t) 0 0 0 =
    let* rest := a2b_loop t (st_q (last_group (vals s))) (st_lb (last_group (vals s)))
                   (st_lc (last_group (vals s))) in
    Ok (regroup (vals s) ++ rest).
Proof.
  intros Hp. change (a2b_loop (s ++ t) 0 0 0) with (a2b_loop (s ++ t) (st_q []) (st_lb []) (st_lc [])).
  rewrite a2b_run by (simpl; auto with arith). rewrite run_out_0, run_end_0. reflexivity.
Qed.

(** ** Complete description of decoding a text without '=' characters:
    [n] counts the characters that remain after whitespace removal, [m] those among
    them that belong to the alphabet. *)
Definition accepts (n m : Z) : bool :=
  let d := n mod 4 in
  let e := m mod 4 in
  negb (d =? 1) &&
  ((e =? 0) || ((e =? 2) && (d =? 2)) || ((e =? 3) && ((d =? 2) || (d =? 3)))).

Definition values (s : str) : list Z := vals (map of_urlsafe s).

Lemma of_urlsafe_pad c : beqb (of_urlsafe c) "="%byte = beqb c "="%byte.
Proof.
  unfold of_urlsafe. destruct (beqb c "-"%byte) eqn:E1.
  - apply beqb_eq in E1 as ->. reflexivity.
  - destruct (beqb c "_"%byte) eqn:E2; [apply beqb_eq in E2 as ->|]; reflexivity.
Qed.

Lemma pad_free_map s : pad_free s -> pad_free (map of_urlsafe s).
Proof. induction 1; constructor; auto. rewrite of_urlsafe_pad. assumption. Qed.

(** What the loop does with the padding added by [Base64WSDecode]. *)
Lemma a2b_pads g n :
  (length g <= 3)%nat -> (n <= 2)%nat ->
  a2b_loop (repeat "="%byte n) (st_q g) (st_lb g) (st_lc g) =
    if (len g =? 0) || ((len g =? 2) && (2 <=? Z.of_nat n)) || ((len g =? 3) && (1 <=? Z.of_nat n))
    then Ok [] else Raise TypeError.
Proof.
  intros Hg Hn. destruct g as [|a [|b [|c [|]]]]; cbn [length] in Hg; try lia;
    destruct n as [|[|[|n]]]; try lia; vm_compute; reflexivity.
Qed.

Lemma decode_stripped_char s :
  pad_free s ->
  decode_stripped s =
    if accepts (len s) (len (values s)) then Ok (regroup (values s)) else Raise Base64DecodingError.
Proof.
  intros Hp. unfold decode_stripped, accepts. cbv zeta.
  destruct (Z.eqb_spec (len s mod 4) 1) as [E1|E1]; [reflexivity|]. cbn [negb andb].
  assert (Hp' := pad_free_map _ Hp).
  pose proof (last_group_len (values s)) as HL.
  pose proof (last_group_bounds (values s)) as HB.
  unfold a2b_base64. set (d := len s mod 4) in *. assert (0 <= d < 4) by (unfold d; lia).
  assert (exists n, (n <= 2)%nat /\
    Z.of_nat n = (if d =? 2 then 2 else if d =? 3 then 1 else 0) /\
    map of_urlsafe (if d =? 2 then s ++ ["="%byte; "="%byte]
                    else if d =? 3 then s ++ ["="%byte] else s)
    = map of_urlsafe s ++ repeat "="%byte n) as (n & Hn2 & Hn & ->).
  { destruct (Z.eqb_spec d 2); [exists 2%nat | destruct (Z.eqb_spec d 3); [exists 1%nat | exists O]];
      rewrite ?map_app; cbn [repeat]; rewrite ?app_nil_r; repeat split; lia. }
  rewrite a2b_run0 by assumption. fold (values s). rewrite a2b_pads by assumption.
  rewrite Hn, HL. clear Hn Hn2 n HL HB.
  remember (len (values s) mod 4) as e eqn:Ee. assert (0 <= e < 4) by lia. clear Ee.
  destruct (Z.eqb_spec e 0); [cbn [bind orb]; rewrite app_nil_r; reflexivity|]. cbn [orb].
  assert (d = 0 \/ d = 2 \/ d = 3) as Hd by lia.
  assert (e = 1 \/ e = 2 \/ e = 3) as He by lia.
  destruct Hd as [-> | [-> | ->]]; destruct He as [-> | [-> | ->]];
    cbn [Z.eqb Pos.eqb Z.leb Z.compare Pos.compare Pos.compare_cont andb orb bind];
    rewrite ?app_nil_r; reflexivity.
Qed.

(** The loop raises TypeError and nothing else. *)
Lemma a2b_loop_exn s q lb lc e : a2b_loop s q lb lc = Raise e -> e = TypeError.
Proof.
  revert q lb lc. induction s as [|c s IH]; intros q lb lc H; cbn [a2b_loop] in H.
  - destruct (lb =? 0); congruence.
  - destruct (beqb c "="%byte).
    + destruct (_ || _); [eapply IH; eassumption | discriminate].
    + destruct (b64_val c); [|eapply IH; eassumption].
      destruct (8 <=? lb + 6); [|eapply IH; eassumption].
      apply bind_Raise in H as [H | (a & _ & H)]; [eapply IH; eassumption | discriminate].
Qed.

Lemma decode_stripped_exn s e : decode_stripped s = Raise e -> e = Base64DecodingError.
Proof.
  unfold decode_stripped. intros H. destruct (_ =? 1); [congruence|].
  destruct (a2b_base64 _) as [b|e'] eqn:E in H; [discriminate|].
  apply a2b_loop_exn in E. subst. congruence.
Qed.

(** ** Encoded text *)
Lemma values_encode s : values (Base64WSEncode s) = six s.
Proof.
  rewrite encode_six. unfold values. pose proof (six_in64 s) as H.
  induction H as [|v l Hv _ IH]; [reflexivity|]. cbn [map vals].
  destruct (ws_char_ok v Hv) as (_ & _ & -> & _). rewrite IH. reflexivity.
Qed.

Lemma encode_pad_free s : pad_free (Base64WSEncode s).
Proof.
  rewrite encode_six. pose proof (six_in64 s) as H.
  induction H as [|v l Hv _ IH]; constructor; [apply (ws_char_ok v Hv) | assumption].
Qed.

Lemma len_encode s : len (Base64WSEncode s) = (4 * len s + 2) / 3.
Proof. rewrite encode_six, len_map. apply six_length. Qed.

Lemma decode_stripped_encode s : decode_stripped (Base64WSEncode s) = Ok s.
Proof.
  rewrite decode_stripped_char by apply encode_pad_free.
  rewrite values_encode, regroup_six, len_encode, six_length.
  assert (A : accepts ((4 * len s + 2) / 3) ((4 * len s + 2) / 3) = true).
  { unfold accepts. cbv zeta. pose proof (len_nonneg s).
    assert (HX : ((4 * len s + 2) / 3) mod 4 <> 1) by lia.
    assert (0 <= ((4 * len s + 2) / 3) mod 4 < 4) by lia.
    remember (((4 * len s + 2) / 3) mod 4) as d.
    assert (d = 0 \/ d = 2 \/ d = 3) as [-> | [-> | ->]] by lia; reflexivity. }
  rewrite A. reflexivity.
Qed.

Lemma encode_no_ws s :
  filter (fun c => negb (is_space c)) (filter (fun c => negb (is_eol c)) (Base64WSEncode s))
  = Base64WSEncode s.
Proof.
  rewrite encode_six. pose proof (six_in64 s) as H.
  rewrite !filter_all; [reflexivity | | rewrite filter_all];
    try (induction H as [|v l Hv _ IH]; constructor;
         [apply negb_true_iff; apply (ws_char_ok v Hv) | assumption]).
Qed.

Lemma base64_roundtrip s : Base64WSDecode (Base64WSEncode s) = Ok s.
Proof. unfold Base64WSDecode. rewrite encode_no_ws. apply decode_stripped_encode. Qed.

Lemma encode_ascii s : Forall (fun b => ord b < 128) (Base64WSEncode s).
Proof.
  rewrite encode_six. pose proof (six_in64 s) as H.
  induction H as [|v l Hv _ IH]; constructor; [apply (ws_char_ok v Hv) | assumption].
Qed.

Lemma encode_no_uws s :
  filter (fun c => negb (c =? 32)%N) (filter (fun c => negb (is_ueol c)) (text_of_str (Base64WSEncode s)))
  = text_of_str (Base64WSEncode s).
Proof.
  assert (W : forall v, in64 v -> is_ueol (Byte.to_N (ws_char v)) = false /\
                                  (Byte.to_N (ws_char v) =? 32)%N = false).
  { intros v Hv.
    pose (P := fun v => negb (is_ueol (Byte.to_N (ws_char v))) && negb (Byte.to_N (ws_char v) =? 32)%N).
    assert (P v = true) as H by (apply forall64; [vm_compute; reflexivity | assumption]).
    unfold P in H. apply andb_true_iff in H as [H1 H2].
    split; apply negb_true_iff; assumption. }
  rewrite encode_six. pose proof (six_in64 s) as H. unfold text_of_str.
  rewrite !filter_all; [reflexivity | | rewrite filter_all];
    try (induction H as [|v l Hv _ IH]; cbn [map]; constructor;
         [apply negb_true_iff; apply (W v Hv) | assumption]).
Qed.

Lemma base64_roundtrip_u s : Base64WSDecode_u (text_of_str (Base64WSEncode s)) = Ok s.
Proof.
  unfold Base64WSDecode_u. rewrite encode_no_uws.
  rewrite str_of_text_of_str by apply encode_ascii. cbn [bind].
  apply decode_stripped_encode.
Qed.

Lemma encode_inj s t : Base64WSEncode s = Base64WSEncode t -> s = t.
Proof.
  intros H. apply (f_equal Base64WSDecode) in H. rewrite !base64_roundtrip in H. congruence.
Qed.
