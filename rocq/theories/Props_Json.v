(** * Props_Json: key and metadata files are JSON texts, RFC 8259 (C74). *)
From Coq Require Import Strings.String.
From Coq Require Import List ZArith NArith Bool Lia ZifyBool ZifyNat ZifyN.
From Coq.Init Require Import Byte.
From Verif Require Import PyBase PyFacts Json JsonFacts JsonSpec JsonSpecFacts KeyInfo SymKeys AsymKeys Keys KeysFacts KeyData Keyczar KeyRing KeyczarFacts DiskFacts.
Import ListNotations.
Local Open Scope Z_scope.
Ltac Zify.zify_post_hook ::= idtac.

(** ** The errors *)

(** ValueError; UnicodeDecodeError is a subclass of it. *)
Definition value_error (e : exn) : Prop := e = ValueError \/ e = UnicodeError.
Definition fine {A} (r : res A) : Prop := forall e, r = Raise e -> value_error e.

Lemma fine_Ok {A} (a : A) : fine (Ok a).
Proof. intros e H. discriminate. Qed.
Lemma fine_V {A} : fine (Raise ValueError : res A).
Proof. intros e H. apply Raise_inj in H as <-. left. reflexivity. Qed.
Lemma fine_U {A} : fine (Raise UnicodeError : res A).
Proof. intros e H. apply Raise_inj in H as <-. right. reflexivity. Qed.
Lemma fine_bind {A B} (r : res A) (k : A -> res B) : fine r -> (forall a, r = Ok a -> fine (k a)) -> fine (bind r k).
Proof. intros H1 H2. destruct r as [a|e]; cbn [bind]; [apply H2; reflexivity | intros e' H; apply Raise_inj in H as <-; apply H1; reflexivity]. Qed.
Ltac fin := first [apply fine_Ok | apply fine_V | apply fine_U].

Lemma fine_u s : fine (parse_u s).
Proof.
  unfold parse_u. destruct (parse_hex4 s) as [[u s1]|]; [|fin]. destruct (_ && _); [|fin]. destruct s1 as [|a [|b s2]]; [fin | fin |]. destruct (_ && _); [|fin].
  destruct (parse_hex4 s2) as [[l s3]|]; [|fin]. destruct (_ && _); fin.
Qed.
Lemma fine_utf8 c s : fine (parse_utf8 c s).
Proof.
  unfold parse_utf8. destruct (_ && _); [destruct s as [|a s]; [fin|]; destruct (cont a); fin|].
  destruct (_ && _); [destruct s as [|a [|b s]]; [fin | fin |]; destruct (cont a); [|fin]; destruct (cont b); [|fin]; cbv zeta; destruct (_ <? _)%N; fin|].
  destruct (_ && _); [|fin]. destruct s as [|a [|b [|d s]]]; [fin | fin | fin |]. destruct (cont a); [|fin]. destruct (cont b); [|fin]. destruct (cont d); [|fin]. cbv zeta. destruct (_ || _); fin.
Qed.
Lemma fine_char c s : fine (one_char c s).
Proof.
  unfold one_char. destruct (beqb c _).
  - destruct s as [|e s]; [fin|]. destruct (beqb e _); [apply fine_u|]. repeat (destruct (beqb e _); [fin|]). fin.
  - destruct (_ <? _); [fin|]. destruct (_ <? _); [fin | apply fine_utf8].
Qed.
Lemma fine_string f : forall s, (length s < f)%nat -> fine (parse_string f s).
Proof.
  induction f as [|f IH]; intros s L; [lia|]. destruct s as [|c s]; [fin|]. rewrite parse_string_S. destruct (beqb c _) eqn:E; [fin|].
  apply fine_bind; [apply fine_char|]. intros [u r] H. destruct (one_char_sound _ _ _ _ E H) as (p & NP & EP & _).
  assert (LR : (length r < length (c :: s))%nat) by (rewrite EP, app_length; destruct p; [congruence | cbn [length]; lia]).
  apply fine_bind; [apply IH; lia|]. intros [t rest] _. fin.
Qed.
Lemma fine_nat s : fine (parse_nat s).
Proof. unfold parse_nat. destruct s as [|c s]; [fin|]. destruct (beqb c _); [fin|]. destruct (is_digit c); fin. Qed.
Lemma fine_number s : fine (parse_number s).
Proof. unfold parse_number. destruct s as [|c s]; [fin|]. destruct (beqb c _); (apply fine_bind; [apply fine_nat|]; intros [n r] _; fin). Qed.

Lemma skip_ws_length s : (length (skip_ws s) <= length s)%nat.
Proof. induction s as [|c s IH]; [cbn; lia|]. cbn [skip_ws length]. destruct (is_ws c); cbn [length]; lia. Qed.
Lemma value_length f s v r : parse_value f s = Ok (v, r) -> (length r < length s)%nat.
Proof. intros H. apply (proj1 (parse_sound f)) in H as (p & -> & HV). destruct (value_start _ _ HV) as (c & q & -> & _). rewrite app_length. cbn [length]. lia. Qed.
Lemma string_length f s t r : parse_string f s = Ok (t, r) -> (length r < length s)%nat.
Proof. intros H. apply parse_string_sound in H as (b & -> & _). rewrite app_length. cbn [length]. lia. Qed.

Lemma fine_parse f :
  (forall s, (2 * length s < f)%nat -> fine (parse_value f s)) /\
  (forall s, (2 * length s + 1 < f)%nat -> fine (parse_elements f s)) /\
  (forall s, (2 * length s + 1 < f)%nat -> fine (parse_members f s)).
Proof.
  induction f as [|f (IV & IE & IM)]; [repeat split; intros; lia|]. split; [|split].
  - intros s L. destruct s as [|c s]; [fin|]. cbn [parse_value]. cbn [length] in L. pose proof (skip_ws_length s) as LS. destruct (beqb c _).
    { apply fine_bind; [apply fine_string; lia|]. intros [t r] _. fin. }
    destruct (beqb c _). { destruct (strip_prefix _ _); [fin|]. apply fine_bind; [apply IM; lia|]. intros [m r] _. fin. }
    destruct (beqb c _). { destruct (strip_prefix _ _); [fin|]. apply fine_bind; [apply IE; lia|]. intros [m r] _. fin. }
    repeat (destruct (strip_prefix _ _); [fin|]). apply fine_number.
  - intros s L. cbn [parse_elements]. apply fine_bind; [apply IV; lia|]. intros [v r] H. apply value_length in H. pose proof (skip_ws_length r) as LS. destruct (skip_ws r) as [|c r']; [fin|]. cbn [length] in LS.
    destruct (beqb c _); [fin|]. destruct (beqb c _); [|fin]. pose proof (skip_ws_length r') as LS'. apply fine_bind; [apply IE; lia|]. intros [l r''] _. fin.
  - intros s L. cbn [parse_members]. destruct s as [|q s]; [fin|]. cbn [length] in L. destruct (beqb q _); [|fin]. apply fine_bind; [apply fine_string; lia|]. intros [k r] H. apply string_length in H.
    pose proof (skip_ws_length r) as LS. destruct (skip_ws r) as [|c r']; [fin|]. cbn [length] in LS. destruct (beqb c _); [|fin]. pose proof (skip_ws_length r') as LS'.
    apply fine_bind; [apply IV; lia|]. intros [v r2] H2. apply value_length in H2. pose proof (skip_ws_length r2) as L2. destruct (skip_ws r2) as [|d r3]; [fin|]. cbn [length] in L2.
    destruct (beqb d _); [fin|]. destruct (beqb d _); [|fin]. pose proof (skip_ws_length r3) as L3. apply fine_bind; [apply IM; lia|]. intros [m r''] _. fin.
Qed.
Lemma fine_loads s : fine (loads s).
Proof.
  unfold loads. apply fine_bind; [apply (proj1 (fine_parse _)); pose proof (skip_ws_length s); lia|]. intros [v r] _. destruct (skip_ws r); fin.
Qed.

(** ** C74 *)

(** What is read: the texts of the grammar, as the values they stand for, and no others; a text
    stands for one value only. *)
Theorem C74_reads_json : forall s,
  (forall v, loads s = Ok v <-> json_text s v) /\
  (forall v w, json_text s v -> json_text s w -> v = w) /\
  ((forall v, ~ json_text s v) <-> exists e, loads s = Raise e /\ value_error e).
Proof.
  intros s. split; [intros v; apply loads_grammar|]. split.
  - intros v w HV HW. apply loads_grammar in HV, HW. rewrite HV in HW. apply Ok_inj in HW. exact HW.
  - split.
    + intros H. destruct (loads s) as [v|e] eqn:E; [apply loads_grammar in E; destruct (H v E)|]. exists e. split; [reflexivity | apply (fine_loads s e E)].
    + intros (e & E & _) v HV. apply loads_grammar in HV. congruence.
Qed.
Print Assumptions C74_reads_json.

(** Key files: a text that is not JSON is refused with ValueError, and of two texts for the same
    value it does not matter which one is in the file. *)
Theorem C74_key_files : forall t s,
  ((forall v, ~ json_text s v) -> exists e, ReadKey t s = Raise e /\ value_error e) /\
  (forall v s', json_text s v -> json_text s' v -> ReadKey t s = ReadKey t s').
Proof.
  intros t s. split.
  - intros H. apply (proj2 (proj2 (C74_reads_json s))) in H as (e & E & HE). exists e. split; [|exact HE]. destruct HE as [-> | ->];
    destruct t; unfold ReadKey, AesKey_Read, HmacKey_Read, DsaPrivateKey_Read, DsaPublicKey_Read, RsaPrivateKey_Read, RsaPublicKey_Read; rewrite E; reflexivity.
  - intros v s' H H'. apply loads_grammar in H, H'.
    destruct t; unfold ReadKey, AesKey_Read, HmacKey_Read, DsaPrivateKey_Read, DsaPublicKey_Read, RsaPrivateKey_Read, RsaPublicKey_Read; rewrite H, H'; reflexivity.
Qed.
Print Assumptions C74_key_files.

(** Metadata, and opening a key set. *)
Theorem C74_metadata : forall s,
  ((forall v, ~ json_text s v) -> exists e, meta_Read s = Raise e /\ value_error e) /\
  (forall v s', json_text s v -> json_text s' v -> meta_Read s = meta_Read s') /\
  (forall c rd, rd_meta rd = Ok s -> (forall v, ~ json_text s v) -> exists e, open_keyset c rd = Raise e /\ value_error e).
Proof.
  intros s. assert (A : (forall v, ~ json_text s v) -> exists e, meta_Read s = Raise e /\ value_error e).
  { intros H. apply (proj2 (proj2 (C74_reads_json s))) in H as (e & E & HE). exists e. split; [|exact HE]. unfold meta_Read. rewrite E. reflexivity. }
  split; [exact A|]. split.
  - intros v s' H H'. apply loads_grammar in H, H'. unfold meta_Read. rewrite H, H'. reflexivity.
  - intros c rd HR H. destruct (A H) as (e & E & HE). exists e. split; [|exact HE]. unfold open_keyset. rewrite HR. cbn [bind]. rewrite E. reflexivity.
Qed.
Print Assumptions C74_metadata.

(** What is written: JSON texts, in ASCII without control characters. *)
Definition printable (c : byte) : Prop := 32 <= ord c <= 126.

Lemma print_app s t : Forall printable s -> Forall printable t -> Forall printable (s ++ t).
Proof. intros. apply Forall_app. split; assumption. Qed.
Lemma print_bs s : forallb (fun c => (32 <=? ord c) && (ord c <=? 126)) (bs s) = true -> Forall printable (bs s).
Proof. rewrite forallb_forall, Forall_forall. intros H c HC. specialize (H c HC). unfold printable. lia. Qed.
Lemma print_hex n : (n < 16)%N -> printable (hex_digit n).
Proof. intros H. unfold hex_digit, printable. destruct (n <? 10)%N eqn:E; rewrite ord_chr_small; lia. Qed.
Lemma print_u n : Forall printable (u_escape n).
Proof.
  unfold u_escape. repeat apply Forall_cons; try apply Forall_nil; try (vm_compute; split; discriminate); apply print_hex, N.mod_lt; discriminate.
Qed.
Lemma print_char c : Forall printable (escape_char c).
Proof.
  unfold escape_char. repeat (match goal with |- context [if (c =? ?x)%N then _ else _] => destruct (c =? x)%N; [repeat constructor; vm_compute; discriminate|] end).
  destruct ((32 <=? c) && (c <=? 126))%N eqn:E; [constructor; [|constructor]; unfold printable; rewrite ord_chr_small; lia|].
  destruct (c <? 65536)%N; [apply print_u | apply print_app; apply print_u].
Qed.
Lemma print_string t : Forall printable (dump_string t).
Proof.
  unfold dump_string. apply print_app; [repeat constructor; vm_compute; discriminate|]. apply print_app; [|repeat constructor; vm_compute; discriminate].
  induction t as [|c t IH]; [constructor|]. cbn [map concat]. apply print_app; [apply print_char | exact IH].
Qed.
Lemma print_digits f : forall n acc, 0 <= n -> Forall printable acc -> Forall printable (digits f n acc).
Proof.
  induction f as [|f IH]; intros n acc Hn HA; [exact HA|]. cbn [digits]. assert (HD : printable (chr (48 + n mod 10))) by (unfold printable; pose proof (Z.mod_pos_bound n 10 ltac:(lia)); rewrite ord_chr_small; lia).
  destruct (n <? 10); [constructor; assumption|]. apply IH; [apply Z.div_pos; lia | constructor; assumption].
Qed.
Lemma print_int n : Forall printable (int_to_str n).
Proof. unfold int_to_str. destruct (n <? 0) eqn:E; [constructor; [vm_compute; split; discriminate|]|]; apply print_digits; try constructor; lia. Qed.
Lemma print_dumps v : json_ok v -> Forall printable (dumps v).
Proof.
  induction v as [|b|n|s|t|l IH|m IH] using json_ind'; intros HO.
  - apply print_bs. reflexivity.
  - destruct b; apply print_bs; reflexivity.
  - apply print_int.
  - destruct HO.
  - apply print_string.
  - apply json_ok_arr in HO. rewrite dumps_arr. apply print_app; [repeat constructor; vm_compute; discriminate|]. apply print_app; [|repeat constructor; vm_compute; discriminate]. generalize true.
    induction l as [|v l IHl]; intros b; [constructor|]. inversion IH as [|? ? I1 I2]; subst. inversion HO as [|? ? O1 O2]; subst. rewrite elems_cons. apply print_app; [destruct b; repeat constructor; vm_compute; discriminate|].
    apply print_app; [apply I1, O1 | apply IHl; assumption].
  - apply json_ok_obj in HO. rewrite dumps_obj. apply print_app; [repeat constructor; vm_compute; discriminate|]. apply print_app; [|repeat constructor; vm_compute; discriminate]. generalize true.
    induction m as [|[k v] m IHm]; intros b; [constructor|]. inversion IH as [|? ? I1 I2]; subst. inversion HO as [|? ? [O0 O1] O2]; subst. rewrite members_cons. apply print_app; [destruct b; repeat constructor; vm_compute; discriminate|].
    apply print_app; [apply print_string|]. apply print_app; [repeat constructor; vm_compute; discriminate|]. apply print_app; [apply I1, O1 | apply IHm; assumption].
Qed.

Theorem C74_writes_json :
  (forall k s, key_wf k -> key_str k = Ok s -> (exists v, json_text s v) /\ Forall printable s) /\
  (forall m s, text_ok (m_name m) -> meta_str m = Ok s -> (exists v, json_text s v) /\ Forall printable s).
Proof.
  split.
  - intros k s W H. rewrite (key_str_eq k W) in H. apply Ok_inj in H as <-. split; [exists (key_json k); apply loads_grammar, loads_dumps, key_json_ok, W | apply print_dumps, key_json_ok, W].
  - intros m s HN H. rewrite meta_str_eq in H. apply Ok_inj in H as <-. assert (O : json_ok (meta_json m (map version_json (meta_versions m)))) by (apply meta_json_ok; [exact HN|]; apply Forall_map, Forall_forall; intros x _; apply version_json_ok).
    split; [eexists; apply loads_grammar, loads_dumps, O | apply print_dumps, O].
Qed.
Print Assumptions C74_writes_json.

(** Escapes, a surrogate pair, UTF-8, white space, a float and nested values; a text cut off is none. *)
Example C74_case :
  json_text (bs " { ""a\u00e9\ud83d\ude00"" : [ 1 , -20, 1.5e3, true , null ] }
") (JObj [([97; 233; 128512]%N, JArr [JInt 1; JInt (-20); JFloat (bs "1.5e3"); JBool true; JNull])]) /\
  json_text ([x22] ++ utf8_of 128512 ++ [x22]) (JStr [128512%N]) /\
  (forall v, ~ json_text (bs "{""a"": [1, ") v) /\ loads (bs "[[[") = Raise ValueError /\
  (forall v, ~ json_text (bs "[01]") v) /\ (forall v, ~ json_text [x22; xff; x22] v) /\ loads [x22; xff; x22] = Raise UnicodeError.
Proof.
  split; [apply loads_grammar; vm_compute; reflexivity|]. split; [apply loads_grammar; vm_compute; reflexivity|].
  split; [intros v H; apply loads_grammar in H; vm_compute in H; discriminate H|]. split; [vm_compute; reflexivity|].
  split; [intros v H; apply loads_grammar in H; vm_compute in H; discriminate H|]. split; [intros v H; apply loads_grammar in H; vm_compute in H; discriminate H|]. vm_compute. reflexivity.
Qed.
