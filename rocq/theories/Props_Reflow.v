(** * Props_Reflow: the Base64 stream reader on arbitrary text (C55).

    Props_Stream has C55 for texts over the Base64 alphabet.  Here the text is arbitrary: what the
    reader delivers is made of separately decoded pieces of the text, cut by position and not by
    what [Base64WSDecode] would skip; and every text with one line break before its end, whose
    other characters make whole groups of four, loses its last byte. *)
From Coq Require Import Strings.String.
From Coq Require Import List ZArith NArith Bool Lia ZifyBool ZifyNat.
From Coq.Init Require Import Byte.
From Verif Require Import PyBase PyFacts Base64 Base64Facts Util UtilFacts Streams StreamFacts Props_Util Props_Stream.
Import ListNotations.
Local Open Scope Z_scope.

(** [u] is the pieces [ps] in order, followed by [rest]; each piece decodes by itself, to [ds]. *)
Definition pieces (u : str) (ps ds : list str) (rest : str) : Prop :=
  u = concat ps ++ rest /\ Forall2 (fun p d => Base64WSDecode p = Ok d) ps ds.

(** All pieces but one that ends the text consist of groups of four characters, skipped ones included. *)
Definition cut_in_fours (ps : list str) (rest : str) : Prop :=
  forall before p after, ps = before ++ p :: after -> (concat after <> [] \/ rest <> []) -> len p mod 4 = 0.

(** ** The invariant *)
Definition at_piece (u acc : str) (r : b64reader channel) : Prop :=
  exists ps ds, pieces u ps ds (br_buffer r ++ ch_rest (br_src r)) /\ concat ds = acc ++ br_chars r /\
    cut_in_fours ps (br_buffer r ++ ch_rest (br_src r)) /\
    (br_buffer r ++ ch_rest (br_src r) <> [] -> Forall (fun p => len p mod 4 = 0) ps).

Lemma cut_all ps rest : Forall (fun p => len p mod 4 = 0) ps -> cut_in_fours ps rest.
Proof. intros H b p a -> _. apply Forall_app in H as [_ H]. inversion H; assumption. Qed.

Lemma cut_last ps p rest : Forall (fun p => len p mod 4 = 0) ps -> rest = [] -> cut_in_fours (ps ++ [p]) rest.
Proof.
  intros H -> b q a E [HA|HA]; [|contradiction].
  assert (In q ps).
  { destruct a as [|x a] using rev_ind; [contradiction|]. rewrite app_comm_cons, app_assoc in E. apply app_inj_tail in E as [-> _].
    apply in_or_app; right; left; reflexivity. }
  rewrite Forall_forall in H. apply H, H0.
Qed.

Lemma cut_empty ps rest : cut_in_fours ps rest -> cut_in_fours (ps ++ [[]]) rest.
Proof.
  intros H b q a E HA. destruct a as [|x a] using rev_ind.
  - apply app_inj_tail in E as [_ <-]. reflexivity.
  - rewrite app_comm_cons, app_assoc in E. apply app_inj_tail in E as [-> <-]. apply (H b q a eq_refl).
    rewrite concat_app in HA. cbn [concat app] in HA. rewrite app_nil_r in HA. exact HA.
Qed.

Lemma Forall2_snoc {A B} (R : A -> B -> Prop) l m a b : Forall2 R l m -> R a b -> Forall2 R (l ++ [a]) (m ++ [b]).
Proof. intros H H1. apply Forall2_app; [exact H | repeat constructor; exact H1]. Qed.

Lemma concat_snoc (l : list str) (x : str) : concat (l ++ [x]) = concat l ++ x.
Proof. rewrite concat_app. cbn [concat]. rewrite app_nil_r. reflexivity. Qed.

Lemma chan_gives c size x c' : chan_read c size = (x, c') ->
  (x = Ok None /\ ch_rest c' = ch_rest c) \/ (exists d, x = Ok (Some d) /\ ch_rest c = d ++ ch_rest c' /\ (size <> 0 -> d = [] -> ch_rest c' = [])).
Proof.
  unfold chan_read. destruct (size =? 0) eqn:E0.
  - intros [= <- <-]. right. exists []. split; [reflexivity|]. split; [reflexivity|]. lia.
  - assert (T : forall n plan, ((length (ch_rest c) <= n)%nat \/ (0 < n)%nat) -> chan_take c plan n = (x, c') ->
      exists d, x = Ok (Some d) /\ ch_rest c = d ++ ch_rest c' /\ (size <> 0 -> d = [] -> ch_rest c' = [])).
    { intros n plan Hn [= <- <-]. exists (firstn n (ch_rest c)). cbn [ch_rest]. split; [reflexivity|]. split; [symmetry; apply firstn_skipn|].
      intros _ H. destruct (ch_rest c) as [|y l]; [apply skipn_nil|]. destruct n; [cbn in Hn; lia | discriminate H]. }
    destruct (ch_plan c) as [|[n|] plan].
    + intros H. right. refine (T _ _ _ H). destruct (size <? 0) eqn:E1; lia.
    + intros H. right. refine (T _ _ _ H). destruct (size <? 0) eqn:E1; [destruct (ch_rest c); [left|right]; cbn [length]; lia | right; lia].
    + intros [= <- <-]. left. split; reflexivity.
Qed.

Lemma decode_piece buf data newchars b : decoder_decode buf data = Ok (newchars, b) ->
  exists p, buf ++ data = p ++ b /\ len p mod 4 = 0 /\ Base64WSDecode p = Ok newchars.
Proof.
  unfold decoder_decode, buffer_decode. set (d := buf ++ data). set (n := 4 * (len d / 4)). pose proof (len_nonneg d).
  assert (0 <= n <= len d) by (unfold n; lia).
  destruct (Base64WSDecode (slice_to d n)) as [w|] eqn:E; cbn [bind]; [|discriminate]. intros [= <- <-].
  exists (slice_to d n). split; [symmetry; apply slice_to_from|]. split; [rewrite len_slice_to by lia; unfold n; lia | exact E].
Qed.

Lemma at_piece_decode u acc cb buf s s' data newchars b :
  at_piece u acc (MkBr cb buf s) -> ch_rest s = data ++ ch_rest s' -> decoder_decode buf data = Ok (newchars, b) ->
  at_piece u acc (MkBr (cb ++ newchars) b s').
Proof.
  intros (ps & ds & [HU HD] & HC & HF & HA) ES ED. cbn [br_buffer br_src br_chars] in *.
  destruct (decode_piece _ _ _ _ ED) as (p & EP & MP & DP).
  exists (ps ++ [p]), (ds ++ [newchars]). cbn [br_buffer br_src br_chars].
  assert (EQ : buf ++ ch_rest s = p ++ b ++ ch_rest s') by (rewrite ES, !app_assoc, EP; reflexivity).
  split; [split|].
  - rewrite concat_snoc, HU, EQ, <- app_assoc. reflexivity.
  - apply Forall2_snoc; assumption.
  - split; [rewrite concat_snoc, HC, app_assoc; reflexivity|].
    destruct p as [|p0 p].
    + cbn [app] in EQ. rewrite <- EQ. split; [apply cut_empty, HF|]. intros H. apply Forall_app. split; [apply HA, H | repeat constructor].
    + assert (Forall (fun p => len p mod 4 = 0) (ps ++ [p0 :: p])).
      { apply Forall_app. split; [apply HA; rewrite EQ; discriminate | repeat constructor; exact MP]. }
      split; [apply cut_all; assumption | intros _; assumption].
Qed.

Lemma at_piece_loop u acc size chars : forall fuel r nd r' nd', at_piece u acc r -> br_loop chan_read fuel r size chars nd = (r', Ok nd') ->
  at_piece u acc r' /\ (br_satisfied chars size (br_chars r') = true \/ (nd' = Some [] /\ (size <> 0 -> ch_rest (br_src r') = []))).
Proof.
  induction fuel as [|fuel IH]; intros r nd r' nd' HA; cbn [br_loop].
  - destruct (br_satisfied chars size (br_chars r)) eqn:ES; intros [= <- <-]. split; [exact HA | left; exact ES].
  - destruct (br_satisfied chars size (br_chars r)) eqn:ES; [intros [= <- <-]; split; [exact HA | left; exact ES]|].
    destruct (chan_read (br_src r) _) as [x s] eqn:ER. apply chan_gives in ER.
    destruct ER as [[-> E1]|(d & -> & E1 & E2)].
    + apply IH. destruct HA as (ps & ds & H). exists ps, ds. cbn [br_buffer br_src br_chars]. rewrite E1. exact H.
    + cbn [br_buffer br_chars]. destruct (decoder_decode (br_buffer r) d) as [[nc b]|] eqn:ED; [|discriminate].
      assert (HA' : at_piece u acc (MkBr (br_chars r ++ nc) b s)).
      { destruct r as [cb buf s0]. apply (at_piece_decode u acc cb buf s0 s d nc b HA E1 ED). }
      destruct d as [|d0 d]; [|apply IH, HA']. intros [= <- <-]. split; [exact HA'|]. right. split; [reflexivity|]. intros HZ. apply E2; [|reflexivity].
      destruct (size <? 0); lia.
Qed.

Lemma at_piece_read u acc fuel r size chars r' x : size <> 0 \/ chars = 0 -> at_piece u acc r ->
  br_read chan_read fuel r size chars = (r', Ok x) ->
  at_piece u (acc ++ match x with Some d => d | None => [] end) r' /\
  (chars <> 0 -> x = Some [] -> br_buffer r' ++ ch_rest (br_src r') = [] /\ br_chars r' = []).
Proof.
  intros HP HA. unfold br_read. destruct (br_loop _ _ _ _ _ _) as [r1 [nd|]] eqn:EL; [|discriminate].
  destruct (at_piece_loop u acc size chars _ _ _ _ _ HA EL) as [HA1 HE].
  set (result := if chars <? 0 then br_chars r1 else slice_to (br_chars r1) chars).
  set (rest := if chars <? 0 then [] else slice_from (br_chars r1) chars).
  assert (ER : br_chars r1 = result ++ rest).
  { unfold result, rest. destruct (chars <? 0); [rewrite app_nil_r; reflexivity | symmetry; apply slice_to_from]. }
  assert (HA2 : at_piece u (acc ++ result) (MkBr rest (br_buffer r1) (br_src r1))).
  { destruct HA1 as (ps & ds & HU & HC & HF & HM). exists ps, ds. cbn [br_buffer br_src br_chars]. split; [exact HU|]. split; [rewrite HC, ER, app_assoc; reflexivity|]. split; assumption. }
  assert (SAT : br_satisfied chars size (br_chars r1) = true -> chars <> 0 -> size <> 0 -> result <> []).
  { intros S H1 H2 H3. unfold br_satisfied in S. unfold result in H3. destruct (chars <? 0) eqn:E1.
    - rewrite H3 in S. change (len (@nil byte)) with 0 in S. destruct (size <? 0) eqn:E2; [discriminate | lia].
    - apply (f_equal len) in H3. rewrite len_slice_to in H3 by lia. change (len (@nil byte)) with 0 in H3. lia. }
  destruct result as [|b0 res] eqn:ERes.
  - destruct nd as [[|n0 nd]|].
    + destruct (Z.eqb_spec chars 0) as [E0|E0].
      * intros [= <- <-]. split; [exact HA2 | intros; contradiction].
      * cbn [br_buffer br_chars br_src]. destruct (decoder_flush (br_buffer r1)) as [[d b]|] eqn:EF; [|discriminate]. intros [= <- <-].
        destruct HP as [HP|HP]; [|contradiction].
        destruct HE as [HE|[_ HE]]; [exfalso; apply (SAT HE E0 HP eq_refl)|]. specialize (HE HP).
        assert (EC : rest = []).
        { unfold rest. unfold result in ERes. destruct (chars <? 0) eqn:E1; [reflexivity|]. fold rest in ER.
          destruct (br_chars r1) as [|y l] eqn:EB; [cbn [app] in ER; symmetry; exact ER|].
          exfalso. revert ERes. rewrite slice_to_firstn by lia. destruct (Z.to_nat chars) eqn:EN; [lia | discriminate]. }
        rewrite EC in *. cbn [br_buffer br_chars br_src] in *.
        destruct HA2 as (ps & ds & [HU HD] & HC & HF & HM). cbn [br_buffer br_src br_chars] in *. rewrite HE, app_nil_r in *.
        unfold decoder_flush in EF. destruct (br_buffer r1) as [|c0 bf] eqn:EB.
        -- injection EF as <- <-. split; [|intros _ _; cbn [br_buffer br_src br_chars app]; split; reflexivity].
           exists ps, ds. cbn [br_buffer br_src br_chars]. rewrite ?HE. cbn [app]. split; [split; assumption|]. split; [rewrite HC, !app_nil_r; reflexivity|]. split; assumption.
        -- unfold buffer_decode in EF. rewrite slice_to_all in EF by lia.
           destruct (Base64WSDecode (c0 :: bf)) as [w|] eqn:EW; cbn [bind] in EF; [|discriminate]. injection EF as <- <-.
           split; [|intros _ _; cbn [br_buffer br_src br_chars app]; split; reflexivity].
           exists (ps ++ [c0 :: bf]), (ds ++ [w]). cbn [br_buffer br_src br_chars]. rewrite ?HE. cbn [app].
           split; [split; [rewrite concat_snoc, app_nil_r; exact HU | apply Forall2_snoc; assumption]|].
           split; [rewrite concat_snoc, HC, !app_nil_r; reflexivity|].
           split; [apply cut_last; [apply HM; discriminate | reflexivity] | intros H; contradiction].
    + intros [= <- <-]. split; [exact HA2|]. intros H1 _. exfalso.
      destruct HE as [HE|[HE _]]; [apply (SAT HE H1 ltac:(lia) eq_refl) | discriminate].
    + intros [= <- <-]. split; [exact HA2|]. discriminate.
  - destruct nd as [[|? ?]|]; intros [= <- <-]; (split; [exact HA2 | discriminate]).
Qed.

Lemma br_reads_length {St} (rd : source St) fuel : forall cs r, length (br_reads rd fuel r cs) = length cs.
Proof. induction cs as [|[size chars] cs IH]; intros r; cbn [br_reads length]; [reflexivity|]. destruct (br_read _ _ _ _ _). cbn [length]. rewrite IH. reflexivity. Qed.

Lemma at_piece_reads u fuel : forall cs r acc, Forall (fun c => fst c <> 0 \/ snd c = 0) cs -> at_piece u acc r ->
  Forall (fun x => is_ok x = true) (br_reads chan_read fuel r cs) ->
  exists r', at_piece u (acc ++ delivered (br_reads chan_read fuel r cs)) r' /\
    (forall cs0 c ys, cs = cs0 ++ [c] -> snd c <> 0 -> br_reads chan_read fuel r cs = ys ++ [Ok (Some [])] ->
       br_buffer r' ++ ch_rest (br_src r') = [] /\ br_chars r' = []).
Proof.
  induction cs as [|[size chars] cs IH]; intros r acc HP HA HX; cbn [br_reads] in *.
  - exists r. split; [unfold delivered; cbn [map concat]; rewrite app_nil_r; exact HA|]. intros [|? ?] c ys E; discriminate E.
  - inversion HP as [|? ? HP1 HP2]; subst. cbn [fst snd] in HP1. destruct (br_read chan_read fuel r size chars) as [r1 [x|]] eqn:ER; [|inversion HX; discriminate].
    inversion HX as [|? ? _ HX2]; subst.
    destruct (at_piece_read u acc fuel r size chars r1 x HP1 HA ER) as [HA1 HE1].
    destruct cs as [|c1 cs].
    { exists r1. cbn [br_reads]. split; [unfold delivered; cbn [map concat]; rewrite app_nil_r; destruct x; exact HA1|].
      intros cs0 c ys E1 HC E2. destruct cs0 as [|? [|? ?]]; [|discriminate|discriminate]. cbn [app] in E1. inversion E1; subst. cbn [snd] in HC.
      destruct ys as [|y [|? ?]]; [|discriminate|discriminate]. cbn [app] in E2. inversion E2; subst. apply HE1; [exact HC | reflexivity]. }
    destruct (IH r1 _ HP2 HA1 HX2) as (r' & HA' & HE'). exists r'. split.
    + unfold delivered in *. cbn [map concat]. rewrite app_assoc. destruct x; exact HA'.
    + intros cs0 c ys E1 HC E2. destruct cs0 as [|c0 cs0]; [discriminate|]. cbn [app] in E1. inversion E1 as [[E3 E4]]; subst. destruct ys as [|y ys].
      * exfalso. apply (f_equal (@length _)) in E2. cbn [app length] in E2. rewrite br_reads_length in E2. cbn [length] in E2. lia.
      * cbn [app] in E2. inversion E2 as [[E5 E6]]. apply (HE' cs0 c ys E4 HC E6).
Qed.

(** ** C55 for arbitrary text *)

(** Whatever the text and the channel, as long as the calls of [read] raise nothing: the text read so far is cut
    into pieces, each decoded by itself; all of them but one at the very end of the text are whole groups of four
    characters, counting those that [Base64WSDecode] skips; and what was delivered is a prefix of what the pieces
    decode to, all of it after a clean end.  Missing from the full statement: that this is [Base64WSDecode] of the
    whole text, which fails below. *)
Theorem C55_pieces_partial : forall u plan fuel cs, Forall (fun c => fst c <> 0 \/ snd c = 0) cs ->
  let xs := br_reads chan_read fuel (br_new (MkChan plan u)) cs in
  Forall (fun x => is_ok x = true) xs ->
  exists ps ds rest, pieces u ps ds rest /\ cut_in_fours ps rest /\
    (exists more, concat ds = delivered xs ++ more) /\
    (forall cs0 c ys, cs = cs0 ++ [c] -> snd c <> 0 -> xs = ys ++ [Ok (Some [])] -> rest = [] /\ concat ds = delivered xs).
Proof.
  intros u plan fuel cs HP xs HX.
  assert (HA : at_piece u [] (br_new (MkChan plan u))).
  { exists [], []. cbn. split; [split; [reflexivity | constructor]|]. split; [reflexivity|]. split; [intros [|? ?] ? ? E; discriminate E | constructor]. }
  destruct (at_piece_reads u fuel cs _ [] HP HA HX) as (r' & (ps & ds & HPi & HC & HF & _) & HE). fold xs in HC, HE. cbn [app] in HC.
  exists ps, ds, (br_buffer r' ++ ch_rest (br_src r')). split; [exact HPi|]. split; [exact HF|]. split; [exists (br_chars r'); exact HC|].
  intros cs0 c ys E1 E2 E3. destruct (HE cs0 c ys E1 E2 E3) as [-> E]. split; [reflexivity|]. rewrite HC, E, app_nil_r. reflexivity.
Qed.
Print Assumptions C55_pieces_partial.

Lemma regroup_snoc v : forall vs, len vs mod 4 = 3 -> exists c, regroup (vs ++ [v]) = regroup vs ++ [c].
Proof.
  induction vs as [| a | a b | a b c | a b c d vs IH] using ind4; intros H; try discriminate H.
  - eexists. reflexivity.
  - destruct IH as [x E]; [rewrite !len_cons in H; pose proof (len_nonneg vs); lia|]. exists x. cbn [app regroup]. rewrite E. reflexivity.
Qed.

(** Every text of whole groups of four, with one line break put somewhere before its end, is read wrongly:
    [Base64WSDecode] decodes it, [read()] delivers all but the last byte, and then [read()] raises. *)
Theorem C55_any_line_break_refuted : forall a b br fuel, Forall (fun c => In c url_alphabet) (a ++ b) -> b <> [] ->
  len (a ++ b) mod 4 = 0 -> br = x0a \/ br = x0d -> (1 < fuel)%nat ->
  exists w c, Base64WSDecode (a ++ [br] ++ b) = Ok (w ++ [c]) /\
    br_reads chan_read fuel (br_new (MkChan [] (a ++ [br] ++ b))) [(-1, -1); (-1, -1)] = [Ok (Some w); Raise Base64DecodingError].
Proof.
  intros a b br fuel HU HB HM HBr HF.
  assert (HG : Forall good_char (a ++ b)) by (eapply Forall_impl; [apply alphabet_good | exact HU]).
  assert (HW : Forall (fun c => whitespace c = true) [br]) by (repeat constructor; destruct HBr as [-> | ->]; reflexivity).
  destruct b as [|l b _] using rev_ind; [contradiction|]. rewrite app_assoc in HG, HM. apply Forall_app in HG as [HG HL].
  assert (LL : len (a ++ b) mod 4 = 3) by (rewrite len_app in HM; change (len [l]) with 1 in HM; lia).
  assert (VL : exists v, values [l] = [v]).
  { inversion HL as [|? ? (_ & _ & _ & v & Hv) _]; subst. exists v. unfold values. cbn [map vals]. rewrite Hv. reflexivity. }
  destruct VL as [v VL]. destruct (regroup_snoc v (values (a ++ b))) as [c EC]; [rewrite len_values by exact HG; exact LL|].
  assert (ED : Base64WSDecode (a ++ [br] ++ b) = Ok (decoded (a ++ b))).
  { rewrite C03_insert_whitespace by exact HW. rewrite (decode_good _ HG), LL. reflexivity. }
  exists (decoded (a ++ b)), c. split.
  - rewrite C03_insert_whitespace by exact HW. rewrite app_assoc. rewrite decode_good by (apply Forall_app; split; assumption).
    rewrite HM. cbn [Z.eqb]. f_equal. unfold decoded. rewrite values_app, VL. exact EC.
  - set (t := a ++ [br] ++ b ++ [l]). assert (ET : t = (a ++ [br] ++ b) ++ [l]) by (unfold t; rewrite <- !app_assoc; reflexivity).
    assert (LT : len (a ++ [br] ++ b) = len (a ++ b) + 1) by (rewrite !len_app; change (len [br]) with 1; lia).
    assert (DD : decoder_decode [] t = Ok (decoded (a ++ b), [l])).
    { unfold decoder_decode, buffer_decode. cbn [app]. set (n := 4 * (len t / 4)). assert (n = len (a ++ [br] ++ b)) as ->.
      { unfold n. rewrite ET, len_app, LT. change (len [l]) with 1. lia. }
      rewrite ET, slice_to_app by reflexivity. rewrite ED. cbn [bind]. rewrite slice_from_app by reflexivity. reflexivity. }
    assert (LW : 0 < len (decoded (a ++ b))) by (rewrite len_decoded by exact HG; pose proof (len_nonneg (a ++ b)); lia).
    destruct fuel as [|[|f]]; [lia|lia|]. set (w := decoded (a ++ b)) in *.
    assert (R1 : chan_read (MkChan [] t) (-1) = (Ok (Some t), MkChan [] [])).
    { unfold chan_read, chan_take. cbn [Z.ltb Z.compare Z.eqb ch_plan ch_rest]. rewrite firstn_all, skipn_all. reflexivity. }
    assert (R2 : chan_read (MkChan [] []) (-1) = (Ok (Some []), MkChan [] [])) by reflexivity.
    assert (L1 : br_loop chan_read (S (S f)) (br_new (MkChan [] t)) (-1) (-1) (Some []) = (MkBr w [l] (MkChan [] []), Ok (Some t))).
    { unfold br_new. cbn [br_loop br_chars br_buffer br_src]. change (br_satisfied (-1) (-1) []) with false. change (if -1 <? 0 then -1 else -1) with (-1). cbv iota.
      rewrite R1. rewrite DD. cbn [app]. destruct t as [|t0 t'] eqn:Et; [destruct a; discriminate Et|].
      change (br_satisfied (-1) (-1) w) with (negb (len w =? 0)). replace (len w =? 0) with false by lia. reflexivity. }
    assert (L2 : br_loop chan_read (S (S f)) (MkBr [] [l] (MkChan [] [])) (-1) (-1) (Some []) = (MkBr [] [l] (MkChan [] []), Ok (Some []))).
    { cbn [br_loop br_chars br_buffer br_src]. change (br_satisfied (-1) (-1) []) with false. change (if -1 <? 0 then -1 else -1) with (-1). cbv iota.
      rewrite R2. reflexivity. }
    assert (FL : Base64WSDecode [l] = Raise Base64DecodingError) by (rewrite decode_good by exact HL; reflexivity).
    cbn [br_reads]. unfold br_read at 1. rewrite L1. cbn [br_chars br_buffer br_src]. change (-1 <? 0) with true. cbv iota.
    destruct w as [|w0 w'] eqn:Ew; [change (len (@nil byte)) with 0 in LW; lia|].
    unfold br_read. rewrite L2. cbn [br_chars br_buffer br_src]. change (-1 <? 0) with true. change (-1 =? 0) with false. cbv iota.
    unfold decoder_flush, buffer_decode. rewrite slice_to_all by lia. rewrite FL. reflexivity.
Qed.
Print Assumptions C55_any_line_break_refuted.

(** The hypotheses are met: a text with a space and a line break inside is delivered in two pieces that
    [Base64WSDecode] pads; and one with a line break loses its last byte. *)
Example C55_pieces_case :
  let u := bs "QU JDREVG" ++ [x0a] ++ bs "QQ" in
  let xs := br_reads chan_read 30 (br_new (MkChan [Some 3%nat; None; Some 1%nat] u)) [(-1, -1); (-1, -1); (-1, -1); (-1, -1); (-1, -1)] in
  Base64WSDecode u = Ok (bs "ABCDEFA") /\ Forall (fun x => is_ok x = true) xs /\
  pieces u [bs "QU J"; bs "DREV"; bs "G" ++ [x0a] ++ bs "QQ"] [bs "AB"; [x0d; x11; x15]; [x19; x04]] [] /\
  delivered xs = bs "AB" ++ [x0d; x11; x15; x19; x04] /\ last xs (Raise Diverge) = Ok (Some []).
Proof.
  cbv zeta. split; [vm_compute; reflexivity|]. split; [vm_compute; repeat constructor|].
  split; [split; [vm_compute; reflexivity | repeat constructor; vm_compute; reflexivity]|]. split; vm_compute; reflexivity.
Qed.

Example C55_any_line_break_case :
  br_reads chan_read 2 (br_new (MkChan [] (bs "QUJDRE" ++ [x0a] ++ bs "VG"))) [(-1, -1); (-1, -1)] = [Ok (Some (bs "ABCDE")); Raise Base64DecodingError].
Proof. vm_compute. reflexivity. Qed.
