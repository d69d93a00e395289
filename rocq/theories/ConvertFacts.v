(** * ConvertFacts: the two decoders agree, and what a rewritten key file holds. *)
From Coq Require Import Strings.String.
From Coq Require Import List ZArith NArith Bool Lia ZifyBool ZifyNat ZifyN.
From Coq.Init Require Import Byte.
From Verif Require Import PyBase PyFacts Util UtilFacts Base64 Base64Facts UtilFacts2 Json JsonFacts KeyInfo KeyData SymKeys AsymKeys Keys KeysFacts Keyczar Disk Convert.
Import ListNotations.
Local Open Scope Z_scope.
Ltac Zify.zify_post_hook ::= idtac.

(** ** Decoding with and without line breaks *)

Definition valid (c : byte) : bool := match b64_val c with Some _ => true | None => false end.

Lemma find_valid_filter s : forall n, find_valid (filter valid s) n = find_valid s n.
Proof.
  induction s as [|c s IH]; intros n; [reflexivity|]. cbn [filter find_valid]. unfold valid at 1.
  destruct (b64_val c) as [v|] eqn:E; [|apply IH]. cbn [find_valid]. rewrite E. destruct n; [reflexivity | apply IH].
Qed.

Lemma a2b_filter s : forall q l c, a2b_loop (filter valid s) q l c = a2b_loop s q l c.
Proof.
  induction s as [|a s IH]; intros q l c; [reflexivity|]. cbn [filter]. unfold valid at 1.
  destruct (b64_val a) as [v|] eqn:E.
  - pose proof (find_valid_filter (a :: s) 1) as F. cbn [filter] in F. unfold valid at 1 in F. rewrite E in F.
    cbn [a2b_loop]. rewrite F, E, !IH. destruct (beqb a "="); [reflexivity|]. destruct (8 <=? l + 6); reflexivity.
  - cbn [a2b_loop]. rewrite E. destruct (beqb a "=") eqn:Q; [apply beqb_eq in Q as ->; discriminate E | apply IH].
Qed.

Definition equals (i : nat) : str := repeat "="%byte i.

Lemma pads_end q l c i : 0 <= q < 4 -> l = 6 * q mod 8 -> (i <= 2)%nat -> a2b_loop (equals i) q l c = Ok [] \/ exists e, a2b_loop (equals i) q l c = Raise e.
Proof.
  intros H -> HI. assert (Q : q = 0 \/ q = 1 \/ q = 2 \/ q = 3) by lia.
  destruct i as [|[|[|i]]]; [| | |lia]; destruct Q as [->|[->|[->| ->]]]; first [left; reflexivity | right; eexists; reflexivity].
Qed.

Lemma a2b_pads t : Forall (fun c => valid c = true) t -> forall i j q l c b b', (i <= 2)%nat -> (j <= 2)%nat -> 0 <= q < 4 -> l = 6 * q mod 8 ->
  a2b_loop (t ++ equals i) q l c = Ok b -> a2b_loop (t ++ equals j) q l c = Ok b' -> b' = b.
Proof.
  induction 1 as [|a t V F IH]; intros i j q l c b b' HI HJ HQ HL E1 E2.
  - rewrite app_nil_l in E1, E2. destruct (pads_end q l c i HQ HL HI) as [A|(e & A)]; [|congruence].
    destruct (pads_end q l c j HQ HL HJ) as [B|(e & B)]; congruence.
  - cbn [app a2b_loop] in E1, E2. unfold valid in V. destruct (b64_val a) as [v|] eqn:EV; [|discriminate].
    assert (Q : q = 0 \/ q = 1 \/ q = 2 \/ q = 3) by lia.
    destruct (beqb a "=") eqn:EA.
    + apply beqb_eq in EA as ->.
      assert (FV : forall k, find_valid ("="%byte :: t ++ equals k) 1 = match t with d :: _ => Some d | [] => match k with O => None | _ => Some "="%byte end end).
      { intros k. cbn [find_valid b64_val ord Byte.to_N Z.of_N Z.leb Z.compare Pos.compare Pos.compare_cont andb Z.eqb Pos.eqb].
        destruct t as [|d t]; cbn [app]; [destruct k; reflexivity|]. inversion F as [|? ? Vd _]; subst. unfold valid in Vd. cbn [find_valid]. destruct (b64_val d); [reflexivity | discriminate]. }
      rewrite FV in E1, E2. destruct t as [|d t].
      * destruct Q as [->|[->|[->| ->]]]; cbn [Z.ltb Z.compare Z.eqb Pos.eqb Pos.compare Pos.compare_cont andb orb] in E1, E2.
        -- exact (IH i j 0 l c b b' HI HJ HQ HL E1 E2).
        -- exact (IH i j 1 l c b b' HI HJ HQ HL E1 E2).
        -- destruct i, j; cbn [negb] in E1, E2; subst l; cbn in E1, E2; congruence.
        -- congruence.
      * match type of E1 with (if ?x then _ else _) = _ => destruct x end; [exact (IH i j q l c b b' HI HJ HQ HL E1 E2) | congruence].
    + assert (HQ' : 0 <= (q + 1) mod 4 < 4) by (apply Z.mod_pos_bound; lia).
      assert (HL' : (8 <=? l + 6 = true -> l + 6 - 8 = 6 * ((q + 1) mod 4) mod 8) /\ (8 <=? l + 6 = false -> l + 6 = 6 * ((q + 1) mod 4) mod 8)).
      { subst l. destruct Q as [->|[->|[->| ->]]]; vm_compute; split; intros; try reflexivity; try discriminate. }
      destruct HL' as [L1 L2]. destruct (8 <=? l + 6) eqn:E8.
      * apply bind_Ok in E1 as (r1 & R1 & E1). apply bind_Ok in E2 as (r2 & R2 & E2).
        rewrite (IH i j _ _ _ r1 r2 HI HJ HQ' (L1 eq_refl) R1 R2) in E2. congruence.
      * exact (IH i j _ _ _ b b' HI HJ HQ' (L2 eq_refl) E1 E2).
Qed.

Lemma padded_form (s : str) : exists i, (i <= 2)%nat /\
  (if len s mod 4 =? 2 then s ++ ["="%byte; "="%byte] else if len s mod 4 =? 3 then s ++ ["="%byte] else s) = s ++ equals i.
Proof.
  destruct (_ =? 2); [exists 2%nat; split; [lia|reflexivity]|]. destruct (_ =? 3); [exists 1%nat; split; [lia|reflexivity]|].
  exists 0%nat. split; [lia|]. symmetry. apply app_nil_r.
Qed.

Lemma filter_equals i : filter valid (map of_urlsafe (equals i)) = equals i.
Proof. unfold equals. induction i as [|i IH]; [reflexivity|]. cbn [repeat map]. change (of_urlsafe "=") with "="%byte. cbn [filter]. change (valid "=") with true. cbv iota. rewrite IH. reflexivity. Qed.

Lemma of_N_small (c : N) : (c < 128)%N -> exists b, Byte.of_N c = Some b /\ Byte.to_N b = c.
Proof.
  intros H. destruct (Byte.of_N c) as [b|] eqn:E.
  - exists b. split; [reflexivity|]. apply Byte.to_of_N. exact E.
  - apply Byte.of_N_None_iff in E. lia.
Qed.

Lemma same_letters u : forall s1 s2, str_of_text (filter (fun c => negb (c =? 32)%N) u) = Ok s1 ->
  str_of_text (filter (fun c => negb (c =? 32)%N) (filter (fun c => negb (is_ueol c)) u)) = Ok s2 ->
  filter valid (map of_urlsafe s1) = filter valid (map of_urlsafe s2).
Proof.
  induction u as [|c u IH]; intros s1 s2 E1 E2; [cbn in E1, E2; apply Ok_inj in E1 as <-; apply Ok_inj in E2 as <-; reflexivity|].
  cbn [filter] in E1, E2. destruct (is_ueol c) eqn:EU; cbn [negb] in E2.
  - destruct (c =? 32)%N eqn:E32; cbn [negb] in E1; [exact (IH s1 s2 E1 E2)|].
    unfold str_of_text in E1. cbn [mapM] in E1. apply bind_Ok in E1 as (b & Eb & E1). apply bind_Ok in E1 as (r & Er & E1). apply Ok_inj in E1 as <-.
    rewrite <- (IH r s2 Er E2). cbn [map filter]. destruct (c <? 128)%N eqn:L; [|discriminate].
    destruct (of_N_small c ltac:(lia)) as (b' & Eb' & EB). rewrite Eb' in Eb. apply Ok_inj in Eb as ->.
    assert (V : valid (of_urlsafe b) = false).
    { clear - EU EB. assert (G : c = 10%N \/ c = 11%N \/ c = 12%N \/ c = 13%N \/ c = 28%N \/ c = 29%N \/ c = 30%N \/ c = 133%N \/ c = 8232%N \/ c = 8233%N) by (unfold is_ueol in EU; lia).
      subst c. destruct b; try reflexivity; exfalso; cbn in G; lia. }
    rewrite V. reflexivity.
  - cbn [filter] in E2. destruct (c =? 32)%N; cbn [negb] in E1, E2; [exact (IH s1 s2 E1 E2)|].
    unfold str_of_text in E1, E2. cbn [mapM] in E1, E2. apply bind_Ok in E1 as (b & Eb & E1). apply bind_Ok in E1 as (r & Er & E1). apply Ok_inj in E1 as <-.
    rewrite Eb in E2. cbn [bind] in E2. apply bind_Ok in E2 as (r2 & Er2 & E2). apply Ok_inj in E2 as <-.
    cbn [map filter]. rewrite (IH r r2 Er Er2). reflexivity.
Qed.

(** The two decoders never give different bytes. *)
Lemma decoders_agree u b b' : b64_decode u = Ok b -> Base64WSDecode_u u = Ok b' -> b' = b.
Proof.
  unfold b64_decode, Base64WSDecode_u, decode_stripped. intros E1 E2. apply bind_Ok in E1 as (s1 & S1 & E1). apply bind_Ok in E2 as (s2 & S2 & E2).
  cbv zeta in E1, E2. destruct (len s1 mod 4 =? 1); [discriminate|]. destruct (len s2 mod 4 =? 1); [discriminate|].
  destruct (padded_form s1) as (i & HI & Ei). destruct (padded_form s2) as (j & HJ & Ej). rewrite Ei in E1. rewrite Ej in E2.
  unfold a2b_base64 in E1, E2. rewrite <- a2b_filter, map_app, filter_app, filter_equals in E1. rewrite <- a2b_filter, map_app, filter_app, filter_equals in E2.
  rewrite <- (same_letters u s1 s2 S1 S2) in E2.
  assert (F : Forall (fun c => valid c = true) (filter valid (map of_urlsafe s1))) by (apply Forall_forall; intros x HI'; apply filter_In in HI'; apply HI').
  destruct (a2b_loop (filter valid (map of_urlsafe s1) ++ equals j) 0 0 0) as [d|e] eqn:D; [|destruct e; discriminate]. apply Ok_inj in E2 as ->.
  exact (a2b_pads _ F i j 0 0 0 b b' HI HJ ltac:(lia) eq_refl E1 D).
Qed.

(** Text written by the encoder is decoded by the script. *)
Lemma b64_encode_is s : b64_encode s = Base64WSEncode s.
Proof. reflexivity. Qed.

(** ** Members of a rewritten object *)

Definition convert_member (k : text) (v : json) : res json :=
  let* v1 := match v with JObj _ => rewrite_rec v | _ => Ok v end in
  if in_fields k then
    match v1 with
    | JStr s => let* b := b64_decode s in Ok (JStr (text_of_str (b64_encode (x00 :: b))))
    | _ => Raise AttributeError
    end
  else Ok v1.

Fixpoint convert_members (m : list (text * json)) : res (list (text * json)) :=
  match m with
  | [] => Ok []
  | (k, v) :: m' => if has_member m' k then convert_members m' else let* v2 := convert_member k v in let* r := convert_members m' in Ok ((k, v2) :: r)
  end.

Lemma rewrite_obj m : rewrite_rec (JObj m) = let* m' := convert_members m in Ok (JObj m').
Proof.
  cbn [rewrite_rec]. f_equal. induction m as [|[k v] m IH]; [reflexivity|]. cbn [convert_members]. destruct (has_member m k); [exact IH|].
  unfold convert_member. rewrite bind_assoc. destruct v; cbn [bind]; try (rewrite IH; reflexivity).
Qed.

Lemma convert_last m : forall m', convert_members m = Ok m' -> forall k,
  match last_member m k with Some v => exists v', convert_member k v = Ok v' /\ last_member m' k = Some v' | None => last_member m' k = None end.
Proof.
  induction m as [|[k0 v0] m IH]; intros m' E k; [apply Ok_inj in E as <-; reflexivity|]. cbn [convert_members] in E. cbn [last_member].
  unfold has_member in E. destruct (last_member m k0) as [x|] eqn:E0.
  - specialize (IH m' E k). destruct (last_member m k) as [v|] eqn:Ek; [exact IH|].
    destruct (text_eqb k0 k) eqn:EQ; [apply text_eqb_eq in EQ as ->; congruence | exact IH].
  - apply bind_Ok in E as (v2 & E2 & E). apply bind_Ok in E as (r & Er & E). apply Ok_inj in E as <-. specialize (IH r Er k). cbn [last_member].
    destruct (last_member m k) as [v|] eqn:Ek.
    + destruct IH as (v' & C & L). exists v'. rewrite L. split; [exact C | reflexivity].
    + rewrite IH. destruct (text_eqb k0 k) eqn:EQ; [apply text_eqb_eq in EQ as ->; exists v2; split; [exact E2 | reflexivity] | reflexivity].
Qed.

Lemma rewrite_is_obj v w : rewrite_rec v = Ok w -> exists m m', v = JObj m /\ w = JObj m' /\ convert_members m = Ok m'.
Proof.
  destruct v as [| | | | | |m]; try discriminate. rewrite rewrite_obj. intros H. apply bind_Ok in H as (m' & E & H). apply Ok_inj in H as <-. eauto.
Qed.

Lemma rewrite_get v w k x : rewrite_rec v = Ok w -> get v k = Ok x -> exists y, convert_member (tx k) x = Ok y /\ get w k = Ok y.
Proof.
  intros R G. destruct (rewrite_is_obj v w R) as (m & m' & -> & -> & E). cbn [get] in G |- *.
  pose proof (convert_last m m' E (tx k)) as L. destruct (last_member m (tx k)) as [v|]; [|discriminate]. apply Ok_inj in G as ->.
  destruct L as (v' & C & ->). exists v'. split; [exact C | reflexivity].
Qed.

Lemma rewrite_ok v : forall w, rewrite_rec v = Ok w -> json_ok v -> json_ok w.
Proof.
  induction v as [| | | | | |m IH] using json_ind'; intros w R; try discriminate. rewrite rewrite_obj in R. apply bind_Ok in R as (m' & E & R). apply Ok_inj in R as <-.
  intros H. apply json_ok_obj in H. apply json_ok_obj. revert m' E. induction m as [|[k v] m IHm]; intros m' E; [apply Ok_inj in E as <-; constructor|].
  inversion IH as [|? ? IHv IH']; inversion H as [|? ? [Hk Hv] H']; subst. cbn [fst snd] in *. cbn [convert_members] in E. destruct (has_member m k); [exact (IHm IH' H' m' E)|].
  apply bind_Ok in E as (v2 & E2 & E). apply bind_Ok in E as (r & Er & E). apply Ok_inj in E as <-. constructor; [|exact (IHm IH' H' r Er)]. cbn [fst snd]. split; [exact Hk|].
  unfold convert_member in E2. apply bind_Ok in E2 as (v1 & E1 & E2).
  assert (O1 : json_ok v1) by (destruct v; try (apply Ok_inj in E1 as <-; exact Hv); exact (IHv v1 E1 Hv)).
  destruct (in_fields k); [|apply Ok_inj in E2 as <-; exact O1]. destruct v1; try discriminate. apply bind_Ok in E2 as (b & _ & E2). apply Ok_inj in E2 as <-. apply text_of_str_ok.
Qed.

Lemma rewrite_get_str v w k s : in_fields (tx k) = false -> rewrite_rec v = Ok w -> get_str v k = Ok s -> get_str w k = Ok s.
Proof.
  intros F R G. unfold get_str in *. apply bind_Ok in G as (x & Gx & G). destruct x; try discriminate. apply Ok_inj in G as ->.
  destruct (rewrite_get v w k _ R Gx) as (y & C & ->). unfold convert_member in C. cbn [bind] in C. rewrite F in C. apply Ok_inj in C as <-. reflexivity.
Qed.
Lemma rewrite_get_int v w k n : in_fields (tx k) = false -> rewrite_rec v = Ok w -> get_int v k = Ok n -> get_int w k = Ok n.
Proof.
  intros F R G. unfold get_int in *. apply bind_Ok in G as (x & Gx & G). destruct x; try discriminate. apply Ok_inj in G as ->.
  destruct (rewrite_get v w k _ R Gx) as (y & C & ->). unfold convert_member in C. cbn [bind] in C. rewrite F in C. apply Ok_inj in C as <-. reflexivity.
Qed.
Lemma rewrite_get_b64 v w k b : in_fields (tx k) = true -> rewrite_rec v = Ok w -> get_b64 v k = Ok b -> get_b64 w k = Ok (x00 :: b).
Proof.
  intros F R G. unfold get_b64, get_str in *. apply bind_Ok in G as (t & Gt & G). apply bind_Ok in Gt as (x & Gx & Gt). destruct x; try discriminate. apply Ok_inj in Gt as ->.
  destruct (rewrite_get v w k _ R Gx) as (y & C & ->). unfold convert_member in C. cbn [bind] in C. rewrite F in C. apply bind_Ok in C as (b0 & D & C). apply Ok_inj in C as <-.
  rewrite <- (decoders_agree t b0 b D G). cbn [bind]. apply base64_roundtrip_u.
Qed.
Lemma rewrite_get_obj v w k x : in_fields (tx k) = false -> rewrite_rec v = Ok w -> get v k = Ok x ->
  exists y, get w k = Ok y /\ match x with JObj _ => rewrite_rec x = Ok y | _ => y = x end.
Proof.
  intros F R G. destruct (rewrite_get v w k _ R G) as (y & C & Gy). exists y. split; [exact Gy|]. unfold convert_member in C. rewrite F in C.
  destruct x; try (apply Ok_inj in C as <-; reflexivity). apply bind_Ok in C as (v1 & C1 & C). apply Ok_inj in C as <-. exact C1.
Qed.
