(** * Props_More: further theorems on claims C03, C13, C19, C33, C46, C50, C52, C64 and C68. *)
From Coq Require Import Strings.String.
From Coq Require Import List ZArith NArith Bool Lia ZifyBool ZifyNat ZifyN.
From Coq.Init Require Import Byte.
From Verif Require Import PyBase PyFacts Base64 Base64Facts Util UtilFacts UtilFacts2 Json JsonFacts KeyInfo SymKeys SymFacts Der DerFacts AsymKeys AsymSpec AsymFacts
  Keys KeysFacts KeyData Keyczar KeyRing KeyczarFacts Props_Keyset Disk Keyczart DiskFacts CrashFacts Props_Disk Props_Tool ModArith ModFacts Props_Cmd Props_Asym Streams StreamFacts Mock Session Props_Sym Props_Session JsonSpec JsonSpecFacts.
Import ListNotations.
Local Open Scope Z_scope.
Ltac Zify.zify_post_hook ::= idtac.

(** ** C03: unicode text *)

(** The characters Python takes for line ends in unicode text (the documentation of
    [str.splitlines]), and the space. *)
Definition line_ends : list N := [10; 11; 12; 13; 28; 29; 30; 133; 8232; 8233]%N.
Definition ignorable (c : N) : Prop := c = 32%N \/ In c line_ends.

Lemma ueol_spec c : is_ueol c = true <-> In c line_ends.
Proof.
  unfold is_ueol, line_ends. cbn [In]. rewrite !orb_true_iff, !N.eqb_eq. split; intros H; repeat (destruct H as [H|H]); try (subst c; tauto); auto 12; tauto.
Qed.

Lemma ignorable_dropped w : Forall ignorable w -> filter (fun c => negb (c =? 32)%N) (filter (fun c => negb (is_ueol c)) w) = [].
Proof.
  induction 1 as [|c w H _ IH]; [reflexivity|]. cbn [filter]. destruct H as [->|H].
  - cbn. exact IH.
  - apply ueol_spec in H. rewrite H. exact IH.
Qed.

(** Inserting such characters anywhere in a unicode text changes nothing. *)
Theorem C03_unicode_whitespace : forall a b w, Forall ignorable w -> Base64WSDecode_u (a ++ w ++ b) = Base64WSDecode_u (a ++ b).
Proof. intros a b w H. unfold Base64WSDecode_u. rewrite !filter_app, (ignorable_dropped w H). reflexivity. Qed.
Print Assumptions C03_unicode_whitespace.

(** A unicode text decodes as the ASCII string with the same characters; a character outside ASCII
    that is not ignored is refused. *)
Theorem C03_unicode_agrees : 
  (forall t, Forall (fun c => ord c < 128 /\ ord c <> 11 /\ ord c <> 12 /\ ~ 28 <= ord c <= 30) t -> Base64WSDecode_u (text_of_str t) = Base64WSDecode t) /\
  (forall u c, In c u -> (128 <= c)%N -> ~ ignorable c -> Base64WSDecode_u u = Raise UnicodeError).
Proof.
  split.
  - intros t H. unfold Base64WSDecode_u, Base64WSDecode.
    assert (E : filter (fun c => negb (c =? 32)%N) (filter (fun c => negb (is_ueol c)) (text_of_str t)) = text_of_str (filter (fun c => negb (is_space c)) (filter (fun c => negb (is_eol c)) t))).
    { unfold text_of_str. induction H as [|c t H _ IH]; [reflexivity|]. cbn [map filter].
      assert (E1 : is_ueol (Byte.to_N c) = is_eol c /\ (Byte.to_N c =? 32)%N = is_space c).
      { pose (P := fun c => (128 <=? ord c) || (ord c =? 11) || (ord c =? 12) || (28 <=? ord c) && (ord c <=? 30) || Bool.eqb (is_ueol (Byte.to_N c)) (is_eol c) && Bool.eqb (Byte.to_N c =? 32)%N (is_space c)).
        assert (PC : P c = true) by (apply forall_bytes; vm_compute; reflexivity). unfold P in PC. rewrite !orb_true_iff, !andb_true_iff, !Bool.eqb_true_iff in PC. destruct PC as [PC|PC]; [exfalso; lia|exact PC]. }
      destruct E1 as [-> E1]. destruct (is_eol c); cbn [negb]; [exact IH|]. cbn [filter]. rewrite E1. destruct (is_space c); cbn [negb map]; rewrite IH; reflexivity. }
    rewrite E, str_of_text_of_str; [reflexivity|]. apply Forall_forall. intros c HC. apply filter_In in HC as [HC _]. apply filter_In in HC as [HC _]. apply (proj1 (Forall_forall _ _) H c HC).
  - intros u c HI HC HN. unfold Base64WSDecode_u.
    assert (HF : In c (filter (fun c => negb (c =? 32)%N) (filter (fun c => negb (is_ueol c)) u))).
    { apply filter_In. split; [apply filter_In; split; [exact HI|]|].
      - apply negb_true_iff, not_true_iff_false. intros E. apply HN. right. apply ueol_spec, E.
      - apply negb_true_iff, N.eqb_neq. intros E. apply HN. left. exact E. }
    assert (ES : forall l, In c l -> str_of_text l = Raise UnicodeError).
    { unfold str_of_text. induction l as [|a l IH]; intros HL; [destruct HL|]. cbn [mapM]. destruct HL as [->|HL].
      - replace (c <? 128)%N with false by lia. reflexivity.
      - rewrite (IH HL). destruct (a <? 128)%N; [|reflexivity]. destruct (Byte.of_N a); reflexivity. }
    rewrite (ES _ HF). reflexivity.
Qed.
Print Assumptions C03_unicode_agrees.

Example C03_unicode_case : Base64WSDecode_u (tx "YW55IGNh" ++ [8232; 10; 133]%N ++ tx "cm5hbA") = Ok (bs "any carnal") /\ Base64WSDecode_u (tx "YW55" ++ [233]%N) = Raise UnicodeError.
Proof. split; vm_compute; reflexivity. Qed.

(** ** C13: what becomes of a malformed DSA signature *)

Theorem C13_malformed_outcomes : forall k msg sig,
  (forall e, decode sig = Raise e -> DsaPublicKey_Verify k msg sig = if is_keyczar_error e then Ok false else Raise e) /\
  (forall v rest, decode sig = Ok (v, rest) ->
    match v with
    | ASeq [AInt r; AInt s] => exists b, DsaPublicKey_Verify k msg sig = Ok b
    | ASeq [_; _] => DsaPublicKey_Verify k msg sig = Raise TypeError
    | ASeq _ => DsaPublicKey_Verify k msg sig = Ok false
    | AInt _ => DsaPublicKey_Verify k msg sig = Raise TypeError
    | AOctet s => DsaPublicKey_Verify k msg sig = if len s =? 2 then Raise AttributeError else Ok false
    | ABits s => DsaPublicKey_Verify k msg sig = if len s =? 2 then Raise AttributeError else Ok false
    | AOid s => DsaPublicKey_Verify k msg sig = if len s =? 2 then Raise AttributeError else Ok false
    | ANull => DsaPublicKey_Verify k msg sig = Ok false
    end).
Proof.
  intros k msg sig. unfold DsaPublicKey_Verify, ParseDsaSig. split; [intros e ->; reflexivity|]. intros v rest ->. cbn [bind fst].
  destruct v as [z|b|s| |a|l]; cbn [asn1_len bind]; try reflexivity.
  - destruct (len b =? 2); reflexivity.
  - destruct (len s =? 2); reflexivity.
  - destruct (len a =? 2); reflexivity.
  - destruct l as [|x [|y [|z l]]]; [reflexivity|destruct x; reflexivity| |].
    + destruct x, y; try reflexivity. eexists. reflexivity.
    + assert (E : len (x :: y :: z :: l) =? 2 = false) by (rewrite !len_cons; pose proof (len_nonneg l); lia). rewrite E. cbn [negb is_keyczar_error]. destruct x, y; reflexivity.
Qed.
Print Assumptions C13_malformed_outcomes.

(** ** C19: ciphertexts that are no number below the modulus *)

(** REFUTED: hostile data is not always refused with a KeyczarError.  Decrypt raises ValueError if
    the number behind the header is not below the modulus, and only otherwise looks at it. *)
Theorem C19_large_numbers : forall c rd ks0 ops id k rest, open_keyset c rd = Ok ks0 -> let ks := run ks0 ops in
  len id = 4 -> (forall k', named ks0 ops id k' -> k' = KRsaPriv k) -> named ks0 ops id (KRsaPriv k) ->
  rn_n (rn_pub (rs_key k)) <= be_val rest -> Decrypt ks (x00 :: id ++ rest) None = Raise ValueError.
Proof.
  intros c rd ks0 ops id k rest HO ks HL HU HN HB. destruct (C34_decrypt_dispatch c rd ks0 ops HO) as [_ D]. destruct (D x00 id rest HL) as (_ & _ & D3 & _).
  destruct (D3 eq_refl _ HN) as (k' & HN' & E). fold ks in E. rewrite E. rewrite (HU k' HN'). cbn [key_Decrypt]. unfold RsaPrivateKey_Decrypt.
  change (x00 :: id ++ rest) with ((x00 :: id) ++ rest). rewrite slice_from_app by (rewrite len_cons, HL; reflexivity). unfold rsa_decrypt_str, rsa_private.
  rewrite bytes_to_long_eq, BytesToLong_val. replace (rn_n (rn_pub (rs_key k)) <=? be_val rest) with true by lia. reflexivity.
Qed.
Print Assumptions C19_large_numbers.

(** ** C33: the type is not checked against the purpose *)

(** Which types can do what. *)
Definition can_encrypt : list ktype := [AES; RSA_PRIV; RSA_PUB].
Definition can_decrypt : list ktype := [AES; RSA_PRIV].
Definition can_sign : list ktype := [HMAC_SHA1; DSA_PRIV; RSA_PRIV].
Definition can_verify : list ktype := [HMAC_SHA1; DSA_PRIV; DSA_PUB; RSA_PRIV; RSA_PUB].

(** REFUTED: a set whose type cannot serve its purpose is opened all the same, if its keys can be
    read; using it raises AttributeError. *)
Theorem C33_types_are_not_checked : forall c rd ks0 ops, open_keyset c rd = Ok ks0 -> let ks := run ks0 ops in
  (forall n k, ring_of ks n = Some (PRIMARY, k) -> forall e data enc,
     (~ In (ks_type ks0) can_encrypt -> Encrypt e ks data enc = Raise AttributeError) /\
     (~ In (ks_type ks0) can_sign -> Sign e ks data enc = Raise AttributeError /\ UnversionedSign e ks data enc = Raise AttributeError)) /\
  (forall id k rest data, len id = 4 -> named ks0 ops id k ->
     (~ In (ks_type ks0) can_decrypt -> Decrypt ks (x00 :: id ++ rest) None = Raise AttributeError) /\
     (~ In (ks_type ks0) can_verify -> Verify ks data (x00 :: id ++ rest) None = Raise AttributeError)).
Proof.
  intros c rd ks0 ops HO ks. pose proof (inv_run ks0 ops (inv_open c rd ks0 HO)) as I. fold ks in I.
  assert (ET : ks_type ks = ks_type ks0) by apply (C28_attributes_kept c rd ks0 ops HO).
  split.
  - intros n k HR e data enc. destruct (C32_primary_key_is_used c rd ks0 ops n k HO HR) as (E1 & E2 & E3 & id & EI & _ & _). fold ks in E1, E2, E3.
    destruct (ring_entry ks n PRIMARY k I HR) as (o & _ & HK & _). pose proof (inv_type ks I o k (assoc_In Nat.eqb_eq HK)) as T. rewrite ET in T. rewrite <- T. rewrite E1, E2, E3. unfold key_header. rewrite EI. cbn [bind].
    split; [intros N; destruct k; try reflexivity; exfalso; apply N; cbn; tauto|]. intros N.
    assert (ES : forall m, key_Sign e k m = Raise AttributeError) by (intros m; destruct k; try reflexivity; exfalso; apply N; cbn; tauto). rewrite !ES.
    destruct (key_header_ok k _ EI) as (id' & _ & _ & EH). unfold key_header in EH. rewrite EI in EH. cbn [bind] in EH. rewrite EH. split; reflexivity.
  - intros id k rest data HL HN. destruct (C34_decrypt_dispatch c rd ks0 ops HO) as [_ D]. destruct (D x00 id rest HL) as (_ & _ & D3 & _). destruct (D3 eq_refl _ HN) as (k' & HN' & E).
    destruct (C34_verify_dispatch c rd ks0 ops HO) as [_ V]. destruct (V data x00 id rest HL) as (_ & _ & V3 & _). destruct (V3 eq_refl _ HN) as (k2 & HN2 & E2). fold ks in E, E2. rewrite E, E2.
    assert (T : forall x, named ks0 ops id x -> key_type x = ks_type ks0).
    { intros x [HX _]. apply (vkeys_held c rd ks0 ops x HO) in HX as (o & HX). fold ks in HX. rewrite <- ET. apply (inv_type ks I o x HX). }
    pose proof (T k' HN') as T1. pose proof (T k2 HN2) as T2. split; intros N.
    + rewrite <- T1 in N. destruct k'; try reflexivity; exfalso; apply N; cbn; tauto.
    + rewrite <- T2 in N. destruct k2; try reflexivity; exfalso; apply N; cbn; tauto.
Qed.
Print Assumptions C33_types_are_not_checked.

(** ** C46 and C50: letter case *)

(** Two strings are equal but for the case of their letters. *)
Definition letters : list (byte * byte) := combine (bs "ABCDEFGHIJKLMNOPQRSTUVWXYZ") (bs "abcdefghijklmnopqrstuvwxyz").
Definition same_letter (a b : byte) : Prop := a = b \/ In (a, b) letters \/ In (b, a) letters.
Definition ignoring_case (a b : str) : Prop := Forall2 same_letter a b.

Lemma same_letter_lower a b : same_letter a b <-> lower_byte a = lower_byte b.
Proof.
  unfold same_letter. pose (inl := fun p : byte * byte => existsb (fun q => beqb (fst p) (fst q) && beqb (snd p) (snd q)) letters).
  assert (IL : forall p, inl p = true <-> In p letters).
  { intros [x y]. unfold inl. rewrite existsb_exists. split.
    - intros ([x' y'] & HI & E). cbn [fst snd] in E. apply andb_true_iff in E as [E1 E2]. apply beqb_eq in E1, E2. subst. exact HI.
    - intros HI. exists (x, y). split; [exact HI|]. cbn [fst snd]. apply andb_true_iff. split; apply beqb_eq; reflexivity. }
  rewrite <- !IL, <- !beqb_eq, <- !orb_true_iff.
  assert (E : (beqb a b || (inl (a, b) || inl (b, a))) = beqb (lower_byte a) (lower_byte b)).
  { clear. revert a b. assert (A : forallb (fun a => forallb (fun b => Bool.eqb (beqb a b || (inl (a, b) || inl (b, a))) (beqb (lower_byte a) (lower_byte b))) all_bytes) all_bytes = true) by (vm_compute; reflexivity).
    intros a b. apply Bool.eqb_prop. rewrite forallb_forall in A. specialize (A a (in_all_bytes a)). rewrite forallb_forall in A. exact (A b (in_all_bytes b)). }
  rewrite E. tauto.
Qed.

Lemma cons_inj {A} (x y : A) a b : x :: a = y :: b -> x = y /\ a = b.
Proof. intros H. split; [injection H; auto | injection H; auto]. Qed.
Lemma ignoring_lower a b : ignoring_case a b <-> lower a = lower b.
Proof.
  unfold ignoring_case, lower. split.
  - induction 1 as [|x y a b H _ IH]; [reflexivity|]. cbn [map]. apply same_letter_lower in H. rewrite H, IH. reflexivity.
  - revert b. induction a as [|x a IH]; intros [|y b] H; try discriminate; [constructor|]. cbn [map] in H. apply cons_inj in H as [H1 H2]. constructor; [apply same_letter_lower, H1 | apply IH, H2].
Qed.

(** --asymmetric is compared with "rsa" without regard to letter case; what else it says makes no
    difference, and for --purpose=crypt not even that. *)
Theorem C46_letter_case : forall p a t, implied p a t <->
  match p, a with
  | DECRYPT_AND_ENCRYPT, None => t = AES
  | DECRYPT_AND_ENCRYPT, Some _ => t = RSA_PRIV
  | SIGN_AND_VERIFY, None => t = HMAC_SHA1
  | SIGN_AND_VERIFY, Some a => ignoring_case a (bs "rsa") /\ t = RSA_PRIV \/ ~ ignoring_case a (bs "rsa") /\ t = DSA_PRIV
  | _, _ => False
  end.
Proof.
  intros p a t. split.
  - destruct 1 as [|a H|a H| |a]; try reflexivity; [left | right]; (split; [rewrite ignoring_lower; exact H | reflexivity]).
  - destruct p, a as [a|]; try contradiction; try (intros ->; constructor).
    intros [[H ->]|[H ->]]; constructor; [apply ignoring_lower in H; exact H | intros E; apply H, ignoring_lower; exact E].
Qed.
Print Assumptions C46_letter_case.

(** --status is one of the three names, without regard to letter case; anything else raises KeyczarError. *)
Theorem C50_status_names : forall s,
  (forall st, GetStatus (text_of_str (upper s)) = Ok st <-> ignoring_case s (match st with PRIMARY => bs "primary" | ACTIVE => bs "active" | INACTIVE => bs "inactive" end)) /\
  (forall e, GetStatus (text_of_str (upper s)) = Raise e -> e = KeyczarError).
Proof.
  intros s.
  assert (U : forall a b, upper a = upper b <-> lower a = lower b).
  { assert (B : forall x y, upper_byte x = upper_byte y <-> lower_byte x = lower_byte y).
    { intros x y. rewrite <- !beqb_eq. assert (E : beqb (upper_byte x) (upper_byte y) = beqb (lower_byte x) (lower_byte y)); [|rewrite E; tauto].
      revert x y. assert (A : forallb (fun a => forallb (fun b => Bool.eqb (beqb (upper_byte a) (upper_byte b)) (beqb (lower_byte a) (lower_byte b))) all_bytes) all_bytes = true) by (vm_compute; reflexivity).
      intros a b. apply Bool.eqb_prop. rewrite forallb_forall in A. specialize (A a (in_all_bytes a)). rewrite forallb_forall in A. exact (A b (in_all_bytes b)). }
    induction a as [|x a IH]; intros [|y b]; split; intros H; try discriminate; try reflexivity; apply cons_inj in H as [H1 H2]; cbn [upper lower map]; f_equal; try (apply B; exact H1); apply IH; exact H2. }
  unfold GetStatus. cbn [by_name status_name].
  assert (T : forall n : string, text_eqb (tx n) (text_of_str (upper s)) = true <-> bs n = upper s).
  { intros n. rewrite text_eqb_eq. unfold tx. split; [apply text_of_str_inj | intros ->; reflexivity]. }
  assert (K : forall n m : string, upper (bs m) = bs n -> (bs n = upper s <-> ignoring_case s (bs m))).
  { intros n m <-. rewrite ignoring_lower, <- U. split; intros; symmetry; assumption. }
  pose proof (T "PRIMARY"%string) as T1. rewrite (K "PRIMARY"%string "primary"%string eq_refl) in T1. pose proof (T "ACTIVE"%string) as T2. rewrite (K "ACTIVE"%string "active"%string eq_refl) in T2. pose proof (T "INACTIVE"%string) as T3. rewrite (K "INACTIVE"%string "inactive"%string eq_refl) in T3.
  assert (D : forall a b, ignoring_case s a -> ignoring_case s b -> lower a = lower b) by (intros a b H1 H2; apply ignoring_lower in H1, H2; congruence).
  destruct (text_eqb (tx "PRIMARY") _); [|destruct (text_eqb (tx "ACTIVE") _); [|destruct (text_eqb (tx "INACTIVE") _)]]; (split; [|try discriminate; intros e H; apply Raise_inj in H as <-; reflexivity]).
  - pose proof (proj1 T1 eq_refl) as HX. intros st. destruct st; split; intros H; try reflexivity; try discriminate; try assumption; exfalso; pose proof (D _ _ HX H) as C; discriminate C.
  - pose proof (proj1 T2 eq_refl) as HX. intros st. destruct st; split; intros H; try reflexivity; try discriminate; try assumption; exfalso; pose proof (D _ _ HX H) as C; discriminate C.
  - pose proof (proj1 T3 eq_refl) as HX. intros st. destruct st; split; intros H; try reflexivity; try discriminate; try assumption; exfalso; pose proof (D _ _ HX H) as C; discriminate C.
  - intros st. destruct st; (split; [discriminate|]); intros H; [apply T1 in H|apply T2 in H|apply T3 in H]; discriminate H.
Qed.
Print Assumptions C50_status_names.

(** What a command needs is checked before anything is changed: without a location, without a
    destination (pubkey), without a known purpose (create), without a version number that is not
    negative (promote, demote, revoke), and for a location that is no directory the command raises
    KeyczarError and leaves the disk as it is. *)
Theorem C50_refusals : forall gen args ds es f, Forall arg_ok args ->
  let run (cmd : string) := exec (main gen (bs cmd :: map arg_str args) ds es) f in
  let refused (cmd : string) := run cmd = (f, Raise KeyczarError) in
  let has_version := exists v n, value VERSION_FLAG args = Some v /\ integer v n in
  (value LOCATION args = None \/ (exists l, value LOCATION args = Some l /\ has_dir f l = false) ->
     refused "pubkey"%string /\
     (value PURPOSE args = Some (bs "crypt") \/ value PURPOSE args = Some (bs "sign") -> refused "create"%string) /\
     (has_version -> refused "promote"%string /\ refused "demote"%string /\ refused "revoke"%string) /\
     (value CRYPTER args = None -> (value VERSION_FLAG args = None \/ has_version) -> (value SIZE args = None \/ exists v z, value SIZE args = Some v /\ integer v z) -> refused "addkey"%string)) /\
  (value DESTINATION args = None -> refused "pubkey"%string) /\
  (value PURPOSE args <> Some (bs "crypt") -> value PURPOSE args <> Some (bs "sign") -> refused "create"%string) /\
  (forall l ks, value LOCATION args = Some l -> loadable f l ks ->
     value VERSION_FLAG args = None \/ (exists v n, value VERSION_FLAG args = Some v /\ integer v n /\ n < 0) ->
     refused "promote"%string /\ refused "demote"%string /\ refused "revoke"%string).
Proof.
  intros gen args ds es f HA run refused has_version. destruct (C50_runs gen args ds es HA) as (R1 & R2 & R3 & R4). destruct (C50_flags args HA) as (fl & EP & EV).
  assert (EP' : forall cmd : string, In cmd command_names -> parse_flags (bs cmd :: map arg_str args) [] = Ok fl).
  { intros cmd IC. rewrite parse_other; [exact EP|]. right. intros rest C. cbn [command_names In] in IC. destruct IC as [<-|[<-|[<-|[<-|[<-|[<-|[<-|[]]]]]]]]; discriminate C. }
  assert (CR : forall cmd : string, cmd = "create"%string -> run cmd = exec (Create (value LOCATION args) (text_of_str (match value NAME args with Some n => n | None => bs "Test" end)) (purpose_flag (value PURPOSE args)) (value ASYMMETRIC args)) f).
  { intros cmd ->. unfold run, main. change (GetCommand (bs "create")) with (Ok CREATE). rewrite !EP' by (cbn [command_names In]; tauto). cbn [pure pbind]. destruct (int_flags fl). rewrite !EV. reflexivity. }
  assert (DEF : value VERSION_FLAG args = None -> run "promote"%string = exec (PromoteCmd (value LOCATION args) (-1) es) f /\ run "demote"%string = exec (DemoteCmd (value LOCATION args) (-1) es) f /\ run "revoke"%string = exec (RevokeCmd (value LOCATION args) (-1) es) f).
  { intros HV. assert (EI : exists so, int_flags fl = (Some (-1), so)).
    { unfold int_flags, int_flag. rewrite !EV, HV. destruct (value SIZE args) as [s|]; [destruct (py_int s)|]; eexists; reflexivity. }
    destruct EI as (so & EI). unfold run, main.
    change (GetCommand (bs "promote")) with (Ok PROMOTE). change (GetCommand (bs "demote")) with (Ok DEMOTE). change (GetCommand (bs "revoke")) with (Ok REVOKE).
    rewrite !EP' by (cbn [command_names In]; tauto). cbn [pure pbind]. rewrite EI, EV. cbn [var pbind]. repeat split; reflexivity. }
  assert (PU : run "pubkey"%string = exec (PubKeyCmd (value LOCATION args) (value DESTINATION args)) f) by (unfold run; rewrite R2; reflexivity).
  assert (G0 : value LOCATION args = None \/ (exists l, value LOCATION args = Some l /\ has_dir f l = false) -> forall cr A (k : keyset -> prog A), exec (pbind (CreateGenericKeyczar (value LOCATION args) cr) k) f = (f, Raise KeyczarError)).
  { intros HL cr A k. destruct HL as [->|(l & -> & HD)]; [reflexivity|]. rewrite exec_bind. unfold CreateGenericKeyczar. rewrite exec_bind. unfold CreateReader, reader_classes, first_accepting, FileReader_CreateReader, NoReader_CreateReader. cbn [pbind exec]. rewrite HD. reflexivity. }
  split; [|split; [|split]].
  - intros HL. split; [|split; [|split]].
    + unfold refused. rewrite PU. unfold PubKeyCmd. destruct (value DESTINATION args); [apply (G0 HL)|reflexivity].
    + intros HP. unfold refused. rewrite (CR _ eq_refl). unfold Create. destruct HL as [->|(l & -> & HD)]; [reflexivity|].
      assert (ET : exists x, create_type (purpose_flag (value PURPOSE args)) (value ASYMMETRIC args) = Ok x).
      { destruct HP as [-> | ->]; [change (purpose_flag (Some (bs "crypt"))) with (Some DECRYPT_AND_ENCRYPT) | change (purpose_flag (Some (bs "sign"))) with (Some SIGN_AND_VERIFY)]; cbn [create_type]; destruct (value ASYMMETRIC args); try destruct (str_eqb _ _); eexists; reflexivity. }
      destruct ET as ([p t] & ->). cbn [pure pbind]. rewrite exec_bind. unfold CreateWriter, first_accepting, FileWriter_CreateWriter. cbn [pbind exec]. rewrite HD. reflexivity.
    + intros (v & n & HV & HI). destruct (R1 n v HV HI) as (E1 & E2 & E3). unfold refused, run. rewrite E1, E2, E3. unfold PromoteCmd, DemoteCmd, RevokeCmd, ChangeCmd. rewrite !(G0 HL).
      split; [reflexivity|]. split; [reflexivity|]. rewrite exec_bind, (G0 HL). reflexivity.
    + intros HC HV HZ. unfold refused. destruct (C50_status_names (match value STATUS args with Some s => s | None => bs "active" end)) as [_ SE].
      assert (EZ : exists z, value SIZE args = None /\ z = -1 \/ exists v, value SIZE args = Some v /\ integer v z) by (destruct HZ as [->|(v & z & EZ & HI)]; [exists (-1); left; split; reflexivity | exists z; right; exists v; split; assumption]).
      destruct EZ as (z & EZ).
      assert (DEC : forall r : res status, (exists st, r = Ok st) \/ exists e, r = Raise e) by (intros [st|e]; [left|right]; eexists; reflexivity).
      destruct (DEC (GetStatus (text_of_str (upper (match value STATUS args with Some s => s | None => bs "active" end))))) as [(st & ES)|(e & ES)].
      * destruct (R4 st z HV ES EZ) as [E4 _]. unfold run. rewrite (E4 HC). unfold AddKeyCmd. apply (G0 HL).
      * unfold run, main. change (GetCommand (bs "addkey")) with (Ok ADDKEY). rewrite !EP' by (cbn [command_names In]; tauto). cbn [pure pbind]. destruct (int_flags fl). rewrite !EV.
        replace (upper match value STATUS args with Some s => s | None => bs "ACTIVE" end) with (upper match value STATUS args with Some s => s | None => bs "active" end) by (destruct (value STATUS args); reflexivity).
        rewrite ES, (SE e ES). reflexivity.
  - intros HD. unfold refused. rewrite PU, HD. reflexivity.
  - intros H1 H2. unfold refused. rewrite (CR _ eq_refl). unfold Create. destruct (value LOCATION args) as [l|]; [|reflexivity].
    assert (EF : purpose_flag (value PURPOSE args) = None).
    { destruct (value PURPOSE args) as [p|]; [|reflexivity]. unfold purpose_flag. rewrite !str_eqb_neq; [reflexivity | |]; intros ->; [apply H2 | apply H1]; reflexivity. }
    rewrite EF. reflexivity.
  - intros l ks HL HO HV.
    assert (CH : forall change n, n < 0 -> exec (ChangeCmd change (Some l) n es) f = (f, Raise KeyczarError)).
    { intros change n HN. rewrite (exec_change change l n es f ks HO). replace (n <? 0) with true by lia. reflexivity. }
    assert (EE : exists n, n < 0 /\ run "promote"%string = exec (PromoteCmd (Some l) n es) f /\ run "demote"%string = exec (DemoteCmd (Some l) n es) f /\ run "revoke"%string = exec (RevokeCmd (Some l) n es) f).
    { destruct HV as [HV|(v & n & HV & HI & HN)]; [exists (-1); rewrite <- HL; split; [lia | exact (DEF HV)]|]. exists n. rewrite <- HL. destruct (R1 n v HV HI) as (E1 & E2 & E3). unfold run. rewrite E1, E2, E3. repeat split; assumption. }
    destruct EE as (n & HN & E1 & E2 & E3). unfold refused. rewrite E1, E2, E3. unfold PromoteCmd, DemoteCmd, RevokeCmd. rewrite exec_bind, !CH by exact HN. repeat split; reflexivity.
Qed.
Print Assumptions C50_refusals.

(** ** C53: streams that are not for this key set *)

(** The first read reports a wrong version byte, an unknown key and a key that is no AES key, however
    the stream is cut up. *)
Theorem C53_header_errors : forall c rd ks0 ops b id rest plan fuel chars, open_keyset c rd = Ok ks0 -> let ks := run ks0 ops in
  len id = 4 -> let raw := b :: id ++ rest in (List.length plan + List.length raw < fuel)%nat ->
  let first := fst (dr_read chan_read fuel (CreateDecryptingStreamReader ks) (MkChan plan raw) chars) in
  (b <> x00 -> first = Raise (BadVersionError (ord b))) /\
  (b = x00 -> (forall k, ~ named ks0 ops id k) -> first = Raise (KeyNotFoundError (Base64WSEncode id))) /\
  (b = x00 -> (exists k, named ks0 ops id k) -> ks_type ks0 <> AES -> first = Raise AttributeError).
Proof.
  intros c rd ks0 ops b id rest plan fuel chars HO ks HL raw HFu first. pose proof (inv_run ks0 ops (inv_open c rd ks0 HO)) as I. fold ks in I.
  assert (F : forall x, match ParseHeader ks (b :: id) with Raise e => x = Raise e | Ok (KAes _) => True | Ok _ => x = Raise AttributeError end -> match ParseHeader ks (b :: id) with Ok (KAes _) => True | _ => first = x end).
  { intros x HX. destruct (ReadBytes_feeds chan_read chan_at 1 chan_feeds ltac:(lia) fuel (MkChan plan raw) raw (List.length plan) 5 true []) as (y & av & s1 & t1 & m1 & E & ET & HP1 & HM & R1 & R2 & R3); [split; reflexivity | reflexivity | exact HFu |].
    cbn [app] in *. pose proof (f_equal len ET) as LT. unfold raw in LT. rewrite len_cons, !len_app in LT. pose proof (len_nonneg t1). pose proof (len_nonneg rest).
    assert (av = true) as -> by (destruct av; [reflexivity|]; destruct (R1 eq_refl) as [-> L]; rewrite len_nil in LT; lia).
    destruct (R2 eq_refl) as [LY|[C _]]; [|discriminate]. destruct (split_at y 5) as (y1 & y2 & -> & L1); [lia|]. rewrite <- (app_assoc y1) in ET.
    change raw with ((b :: id) ++ rest) in ET. destruct (app_inv_len _ _ _ _ ET) as [<- ET2]; [rewrite len_cons; lia|].
    unfold first, dr_read, dr_CreateKey, CreateDecryptingStreamReader, set_enc, set_key, set_hmac. cbn [dr_key dr_cipher dr_ks dr_hmac dr_enc dr_dec dr_closed].
    change (HEADER_SIZE - len (@nil byte)) with 5. rewrite E. cbn [dr_key dr_cipher dr_ks dr_hmac dr_enc dr_dec dr_closed]. change HEADER_SIZE with 5. change ([] ++ (b :: id) ++ y2) with ((b :: id) ++ y2).
    replace (5 <=? len ((b :: id) ++ y2)) with true by lia. rewrite slice_to_app by (rewrite len_cons; lia).
    destruct (ParseHeader ks (b :: id)) as [k|e]; [destruct k; try exact Logic.I|]; rewrite HX; reflexivity. }
  destruct (dispatch c rd ks0 ops b id [] HO HL) as [D1 D2]. fold ks in D1, D2. rewrite app_nil_r in D1, D2.
  assert (SL : slice_to (b :: id) HEADER_SIZE = b :: id) by (rewrite <- (app_nil_r (b :: id)) at 1; apply slice_to_app; rewrite len_cons, HL; reflexivity). rewrite SL in D1, D2.
  split; [|split].
  - intros HB. specialize (D1 HB). rewrite D1 in F. exact (F _ eq_refl).
  - intros HB HN. destruct (D2 HB) as [(k & HK & _)|[_ D]]; [destruct (HN k HK)|]. rewrite D in F. exact (F _ eq_refl).
  - intros HB (k0 & HK0) HT. destruct (D2 HB) as [(k & HK & D)|[HN _]]; [|destruct (HN k0 HK0)]. rewrite D in F.
    assert (T : key_type k <> AES).
    { destruct HK as [HX _]. apply (vkeys_held c rd ks0 ops k HO) in HX as (o & HX). fold ks in HX. rewrite (inv_type ks I o k HX). replace (ks_type ks) with (ks_type ks0); [exact HT|]. symmetry. apply (C28_attributes_kept c rd ks0 ops HO). }
    destruct k; try exact (F _ eq_refl). destruct (T eq_refl).
Qed.
Print Assumptions C53_header_errors.

(** ** C64: the names in the files, and members that are missing *)

Definition type_names : list (string * ktype) :=
  [("AES", AES); ("HMAC_SHA1", HMAC_SHA1); ("DSA_PRIV", DSA_PRIV); ("DSA_PUB", DSA_PUB); ("RSA_PRIV", RSA_PRIV); ("RSA_PUB", RSA_PUB)]%string.
Definition status_names : list (string * status) := [("PRIMARY", PRIMARY); ("ACTIVE", ACTIVE); ("INACTIVE", INACTIVE)]%string.
Definition purpose_names : list (string * purpose) :=
  [("DECRYPT_AND_ENCRYPT", DECRYPT_AND_ENCRYPT); ("ENCRYPT", ENCRYPT); ("SIGN_AND_VERIFY", SIGN_AND_VERIFY); ("VERIFY", VERIFY)]%string.
Definition mode_names : list (string * mode) := [("CBC", CBC); ("CTR", CTR); ("ECB", ECB); ("DET_CBC", DET_CBC)]%string.

(** [look] finds the entry of the table that has the name, and raises KeyczarError if there is none. *)
Definition looks_up {A} (look : text -> res A) (table : list (string * A)) : Prop :=
  forall n, (forall a, look n = Ok a <-> exists s, In (s, a) table /\ n = tx s) /\
            (look n = Raise KeyczarError <-> forall s a, In (s, a) table -> n <> tx s).

Lemma by_name_table {A} (name_of : A -> string) : forall l, NoDup (map name_of l) -> looks_up (by_name name_of l) (map (fun a => (name_of a, a)) l).
Proof.
  induction l as [|a l IH]; intros ND n; cbn [by_name map].
  - split; [intros b; split; [discriminate | intros (s & [] & _)]|]. split; [intros _ s b [] | reflexivity].
  - apply NoDup_cons_iff in ND as [N1 N2]. destruct (IH N2 n) as [H1 H2]. destruct (text_eqb (tx (name_of a)) n) eqn:E.
    + apply text_eqb_eq in E. split.
      * intros b. split; [intros H; apply Ok_inj in H as <-; exists (name_of a); split; [left; reflexivity | symmetry; exact E]|].
        intros (s & HI & HN). destruct HI as [HI|HI]; [apply pair_inj in HI as [_ <-]; reflexivity|]. exfalso. apply N1. apply in_map_iff in HI as (x & EX & HI). apply pair_inj in EX as [<- <-].
        assert (EN : name_of a = name_of x). { rewrite HN in E. unfold tx in E. apply text_of_str_inj, (f_equal string_of_list_byte) in E. unfold bs in E. rewrite !string_of_list_byte_of_string in E. exact E. }
        rewrite EN. apply in_map, HI.
      * split; [discriminate|]. intros H. exfalso. apply (H (name_of a) a); [left; reflexivity | symmetry; exact E].
    + split.
      * intros b. rewrite H1. split; intros (s & HI & HN); exists s; (split; [|exact HN]); [right; exact HI|]. destruct HI as [HI|HI]; [|exact HI]. apply pair_inj in HI as [<- <-]. exfalso. rewrite HN in E.
        assert (T : text_eqb (tx (name_of a)) (tx (name_of a)) = true) by (apply text_eqb_eq; reflexivity). rewrite E in T. discriminate T.
      * rewrite H2. split; intros H s b HI; [destruct HI as [HI|HI]; [|exact (H s b HI)] | exact (H s b (or_intror HI))].
        apply pair_inj in HI as [<- <-]. intros ->. assert (T : text_eqb (tx (name_of a)) (tx (name_of a)) = true) by (apply text_eqb_eq; reflexivity). rewrite E in T. discriminate T.
Qed.

Theorem C64_names : looks_up GetType type_names /\ looks_up GetStatus status_names /\ looks_up GetPurpose purpose_names /\ looks_up GetMode mode_names.
Proof.
  repeat split; try (apply (by_name_table type_name all_types)); try (apply (by_name_table status_name [PRIMARY; ACTIVE; INACTIVE]));
    try (apply (by_name_table purpose_name [DECRYPT_AND_ENCRYPT; ENCRYPT; SIGN_AND_VERIFY; VERIFY])); try (apply (by_name_table mode_name [CBC; CTR; ECB; DET_CBC]));
    try assumption; cbn; repeat constructor; cbn; intuition discriminate.
Qed.
Print Assumptions C64_names.

(** The members a key file must have. *)
Definition members (t : ktype) : list string :=
  match t with
  | AES => ["mode"; "size"; "aesKeyString"; "hmacKey"]
  | HMAC_SHA1 => ["hmacKeyString"; "size"]
  | DSA_PUB => ["p"; "q"; "g"; "y"; "size"]
  | DSA_PRIV => ["publicKey"; "x"; "size"]
  | RSA_PUB => ["modulus"; "publicExponent"; "size"]
  | RSA_PRIV => ["publicKey"; "privateExponent"; "primeP"; "primeQ"; "primeExponentP"; "primeExponentQ"; "crtCoefficient"; "size"]
  end%string.
Definition without (name : string) (ms : list (text * json)) : list (text * json) := filter (fun p => negb (text_eqb (fst p) (tx name))) ms.

Lemma last_without ms name : last_member (without name ms) (tx name) = None.
Proof.
  induction ms as [|[k v] ms IH]; [reflexivity|]. cbn [without filter fst]. destruct (text_eqb k (tx name)) eqn:E; cbn [negb]; [exact IH|]. cbn [last_member]. fold (without name ms). rewrite IH, E. reflexivity.
Qed.
Lemma tx_inj a b : tx a = tx b -> a = b.
Proof. unfold tx. intros E. apply text_of_str_inj, (f_equal string_of_list_byte) in E. unfold bs in E. rewrite !string_of_list_byte_of_string in E. exact E. Qed.
Lemma last_without_other ms name k : name <> k -> last_member (without name ms) (tx k) = last_member ms (tx k).
Proof.
  intros N. induction ms as [|[k' v] ms IH]; [reflexivity|]. cbn [without filter fst]. destruct (text_eqb k' (tx name)) eqn:E; cbn [negb last_member]; fold (without name ms); rewrite IH; [|reflexivity].
  apply text_eqb_eq in E. subst k'. destruct (last_member ms (tx k)); [reflexivity|]. destruct (text_eqb (tx name) (tx k)) eqn:E; [|reflexivity]. apply text_eqb_eq, tx_inj in E. contradiction.
Qed.
Lemma get_without ms name : get (JObj (without name ms)) name = Raise KeyError.
Proof. cbn [get]. rewrite last_without. reflexivity. Qed.
Lemma get_other ms name k : name <> k -> get (JObj (without name ms)) k = get (JObj ms) k.
Proof. intros N. cbn [get]. rewrite last_without_other by exact N. reflexivity. Qed.

Lemma str_without ms name : get_str (JObj (without name ms)) name = Raise KeyError.
Proof. unfold get_str. rewrite get_without. reflexivity. Qed.
Lemma int_without ms name : get_int (JObj (without name ms)) name = Raise KeyError.
Proof. unfold get_int. rewrite get_without. reflexivity. Qed.
Lemma b64_without ms name : get_b64 (JObj (without name ms)) name = Raise KeyError.
Proof. unfold get_b64. rewrite str_without. reflexivity. Qed.
Lemma str_other ms name k : name <> k -> get_str (JObj (without name ms)) k = get_str (JObj ms) k.
Proof. intros N. unfold get_str. rewrite get_other by exact N. reflexivity. Qed.
Lemma int_other ms name k : name <> k -> get_int (JObj (without name ms)) k = get_int (JObj ms) k.
Proof. intros N. unfold get_int. rewrite get_other by exact N. reflexivity. Qed.
Lemma b64_other ms name k : name <> k -> get_b64 (JObj (without name ms)) k = get_b64 (JObj ms) k.
Proof. intros N. unfold get_b64. rewrite str_other by exact N. reflexivity. Qed.

(** A key file that can be read, with one of these members left out, is refused with KeyczarError. *)
Theorem C64_missing_member : forall t s s' ms k name, json_text s (JObj ms) -> ReadKey t s = Ok k ->
  In name (members t) -> json_text s' (JObj (without name ms)) -> ReadKey t s' = Raise KeyczarError.
Proof.
  intros t s s' ms k name HL HR HN HL'. apply loads_grammar in HL, HL'. unfold ReadKey in HR. apply keyczar_Ok in HR.
  destruct t; apply bind_Ok in HR as (k' & HR & _); unfold ReadKey;
    unfold AesKey_Read, HmacKey_Read, DsaPrivateKey_Read, RsaPrivateKey_Read in *; try unfold DsaPublicKey_Read in HR |- *; try unfold RsaPublicKey_Read in HR |- *; rewrite HL' ; rewrite HL in HR; cbn [bind] in HR |- *;
    repeat (apply bind_Ok in HR as (? & ? & HR)); cbn [members In] in HN; repeat destruct HN as [<-|HN]; try destruct HN;
    repeat match goal with
    | |- context [get_b64 (JObj (without ?n ms)) ?n] => rewrite (b64_without ms n)
    | |- context [get_str (JObj (without ?n ms)) ?n] => rewrite (str_without ms n)
    | |- context [get_int (JObj (without ?n ms)) ?n] => rewrite (int_without ms n)
    | |- context [get (JObj (without ?n ms)) ?n] => rewrite (get_without ms n)
    | |- context [get_b64 (JObj (without ?n ms)) ?n'] => rewrite (b64_other ms n n') by discriminate
    | |- context [get_str (JObj (without ?n ms)) ?n'] => rewrite (str_other ms n n') by discriminate
    | |- context [get_int (JObj (without ?n ms)) ?n'] => rewrite (int_other ms n n') by discriminate
    | |- context [get (JObj (without ?n ms)) ?n'] => rewrite (get_other ms n n') by discriminate
    | H : ?a = Ok _ |- context [?a] => rewrite H
    | |- _ => progress cbn [bind]
    end; try reflexivity.
Qed.
Print Assumptions C64_missing_member.

(** ** C68: asking the mock for a key it does not have *)
Theorem C68_missing_versions : forall m n,
  (ExistsVersion m n = false <-> GetKeySize m n = Raise KeyError) /\
  (ExistsVersion m n = false <-> mock_RemoveKey m n = (m, Raise KeyError)) /\
  (ExistsVersion m n = false -> HasPubKey m n = Raise KeyError /\ rd_key (mock_reader m) n = Raise KeyczarError) /\
  (assoc Z.eqb (mk_pubkeys m) n = None -> HasPubKey m n = Raise KeyError) /\
  (forall k pub, assoc Z.eqb (mk_keys m) n = Some k -> assoc Z.eqb (mk_pubkeys m) n = Some pub ->
     (key_type k <> DSA_PRIV -> key_type k <> RSA_PRIV -> HasPubKey m n = Raise AttributeError) /\
     (key_type k = DSA_PRIV \/ key_type k = RSA_PRIV -> exists b, HasPubKey m n = Ok b)).
Proof.
  intros m n. unfold ExistsVersion, GetKeySize, mock_RemoveKey, HasPubKey, mock_reader. cbn [rd_key].
  destruct (assoc Z.eqb (mk_keys m) n) as [k|]; (split; [split; congruence|]; split; [split; congruence|]; split; [intros; split; congruence|]; split; [intros H; try rewrite H; reflexivity|]).
  - intros k1 pub H HP. apply Some_inj in H as <-. rewrite HP. split; [intros N1 N2; destruct k; try reflexivity; [destruct (N1 eq_refl) | destruct (N2 eq_refl)] | intros [T|T]; destruct k; try discriminate T; eexists; reflexivity].
  - intros k1 pub H. discriminate H.
Qed.
Print Assumptions C68_missing_versions.

(** ** Cases *)

(** An RSA set, and a message whose number is not below the modulus. *)
Example C19_large_case : exists ks id, open_keyset Crypter (StaticKeyReader (KRsaPriv demo_rsa) DECRYPT_AND_ENCRYPT) = Ok ks /\ len id = 4 /\
  named ks [] id (KRsaPriv demo_rsa) /\ rn_n (rn_pub (rs_key demo_rsa)) <= be_val (rep 200 xff).
Proof.
  destruct demo_rsa_set as (ks & E & HR). destruct (Base64WSDecode (rsapub_hash_id (rs_pub demo_rsa))) as [id|] eqn:D; [|vm_compute in D; discriminate]. exists ks, id. split; [exact E|].
  vm_compute in D. apply Ok_inj in D as <-. split; [reflexivity|]. split; [split; [exists [], [], 1, PRIMARY; split; [reflexivity | exact HR] | vm_compute; reflexivity]|]. vm_compute. discriminate.
Qed.

(** A Crypter of HMAC keys: it opens, and cannot encrypt. *)
Example C33_type_case : exists ks, open_keyset Crypter (StaticKeyReader (KHmac demo_hmac) DECRYPT_AND_ENCRYPT) = Ok ks /\ ks_type ks = HMAC_SHA1 /\
  ring_of ks 1 = Some (PRIMARY, KHmac demo_hmac) /\ ~ In HMAC_SHA1 can_encrypt /\ ~ In HMAC_SHA1 can_decrypt.
Proof. eexists. split; [vm_compute; reflexivity|]. split; [reflexivity|]. split; [vm_compute; reflexivity|]. split; cbn; intuition discriminate. Qed.

Example C46_letter_case_shown : implied SIGN_AND_VERIFY (Some (bs "rSa")) RSA_PRIV /\ implied SIGN_AND_VERIFY (Some (bs "rsaa")) DSA_PRIV.
Proof. split; apply C46_letter_case; [left | right]; (split; [|reflexivity]); rewrite ignoring_lower; vm_compute; [reflexivity | discriminate]. Qed.

Example C50_refusals_case : GetStatus (text_of_str (upper (bs "pRiMaRy"))) = Ok PRIMARY /\ loadable test_disk (bs "/hmac") hmac_set /\ has_dir test_disk (bs "/nowhere") = false /\
  (let args := [Flag LOCATION (bs "/nowhere"); Flag VERSION_FLAG (bs "2")] in Forall arg_ok args /\ exec (main no_genkey (bs "revoke" :: map arg_str args) [] one_env) test_disk = (test_disk, Raise KeyczarError)).
Proof.
  split; [reflexivity|]. split; [exact hmac_loadable|]. split; [reflexivity|]. split; [repeat constructor; unfold no_eq; vm_compute; intuition discriminate | vm_compute; reflexivity].
Qed.

Example C53_header_case : let id := map chr [62; 83; 78; 71] in open_keyset GenericKeyczar hmac_reader = Ok hmac_set /\ len id = 4 /\ (exists k, named hmac_set [] id k) /\ ks_type hmac_set <> AES /\
  fst (dr_read chan_read 40 (CreateDecryptingStreamReader hmac_set) (MkChan [] (x00 :: id ++ bs "0123456789abcdef")) 10) = Raise AttributeError /\
  fst (dr_read chan_read 40 (CreateDecryptingStreamReader hmac_set) (MkChan [] (x01 :: id ++ bs "0123456789abcdef")) 10) = Raise (BadVersionError 1).
Proof.
  intros id. split; [exact hmac_set_opens|]. split; [reflexivity|]. split; [eexists; split; [exists [], [], 1; eexists; split; reflexivity | vm_compute; reflexivity]|]. split; [discriminate|]. split; vm_compute; reflexivity.
Qed.

Example C64_missing_case : exists ms k, json_text hmac_1 (JObj ms) /\ ReadKey HMAC_SHA1 hmac_1 = Ok k /\ json_text (dumps (JObj (without "size" ms))) (JObj (without "size" ms)) /\
  ReadKey HMAC_SHA1 (dumps (JObj (without "size" ms))) = Raise KeyczarError.
Proof. eexists _, _. split; [apply loads_grammar; vm_compute; reflexivity|]. split; [vm_compute; reflexivity|]. split; [apply loads_grammar|]; vm_compute; reflexivity. Qed.

Example C13_malformed_case : exists k, DsaPublicKey_Verify k (bs "m") (bs "x") = Raise PyAsn1Error /\ DsaPublicKey_Verify k (bs "m") [x30; x00] = Ok false /\ DsaPublicKey_Verify k (bs "m") [x02; x01; x05] = Raise TypeError.
Proof. exists (ds_pub (DsaPrivateKey_Generate (MkDsaNums (MkDsaPubNums 3 2 7 3) 2) 1024)). split; [|split]; vm_compute; reflexivity. Qed.

Example C68_missing_case : let m := MockReader (tx "T") DECRYPT_AND_ENCRYPT AES false in ExistsVersion m 1 = false /\ exists m1, ExistsVersion (SetKey m 1 (KHmac demo_hmac)) 1 = true /\
  m1 = SetPubKey (SetKey m 1 (KHmac demo_hmac)) 1 (KHmac demo_hmac) /\ HasPubKey m1 1 = Raise AttributeError.
Proof. split; [reflexivity|]. eexists. split; [reflexivity|]. split; reflexivity. Qed.
