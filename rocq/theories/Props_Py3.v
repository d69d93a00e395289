(** * Props_Py3: C59, the library under Python 3.

    The sources parse only under Python 3.  The property says that a key set with at least one
    key can then be opened and used.  It is false in the strongest sense: no such set can be
    opened, no key can be added, and no operation that needs a key ever returns. *)
From Coq Require Import Strings.String.
From Coq Require Import List ZArith NArith Bool Lia.
From Coq.Init Require Import Byte.
From Verif Require Import PyBase PyFacts Base64 Sha1 Util Json KeyInfo AsymKeys KeyData Keyczar Py3.
Import ListNotations.
Local Open Scope Z_scope.

(** The call ends with an exception. *)
Definition fails {A} (r : res A) : Prop := exists e, r = Raise e.

Lemma fails_bind {A B} (r : res A) (k : A -> res B) : (forall a, r = Ok a -> fails (k a)) -> fails (bind r k).
Proof. destruct r as [a | e]; intros H; [ exact (H a eq_refl) | exists e; reflexivity ]. Qed.

Lemma fails_not_Ok {A} (r : res A) a : fails r -> r <> Ok a.
Proof. intros [e ->] H; discriminate. Qed.

(** ** Encoding and identifiers *)

(** Base64WSEncode fails for every argument, text or bytes. *)
Theorem C59_no_base64_refuted v : Base64WSEncode3 v = Raise TypeError.
Proof. reflexivity. Qed.
Print Assumptions C59_no_base64_refuted.

Lemma short_hash_fails v : fails (short_hash3 v).
Proof. unfold short_hash3. apply fails_bind; intros h _. exists TypeError; reflexivity. Qed.

(** No key has an identifier, whatever its type and its parameters. *)
Theorem C59_no_identifier_refuted k : fails (key3_hash_id k).
Proof.
  destruct k; cbn [key3_hash_id]; unfold params_hash3;
    repeat match goal with |- fails (short_hash3 _) => apply short_hash_fails | |- _ => apply fails_bind; intros ? _ end.
Qed.
Print Assumptions C59_no_identifier_refuted.

(** ** Opening *)

Lemma load_keys3_Ok ctor rd t vs p vk hk r : load_keys3 ctor rd t vs p vk hk = Ok r -> vs = [].
Proof.
  destruct vs as [| v vs]; [ reflexivity | intros H; exfalso; revert H ].
  apply fails_not_Ok. cbn [load_keys3].
  apply fails_bind; intros p' _. apply fails_bind; intros j _. apply fails_bind; intros k _.
  apply fails_bind; intros h Hh. destruct (C59_no_identifier_refuted k) as [e He]. congruence.
Qed.

(** A key set with a version cannot be opened with any reader, as any class. *)
Theorem C59_no_key_set_opens_refuted ctor c rd m : r3_meta rd = Ok m -> meta_versions m <> [] -> fails (open3 ctor c rd).
Proof.
  intros Hm Hv. destruct (open3 ctor c rd) as [ks | e] eqn:Ho; [ exfalso | exists e; reflexivity ].
  unfold open3 in Ho. rewrite Hm in Ho. cbn [bind] in Ho.
  destruct (negb (IsAcceptablePurpose c (m_purpose m))); [ discriminate Ho | ].
  destruct (m_encrypted m && negb (r3_encrypted rd)); [ discriminate Ho | ].
  destruct (load_keys3 ctor rd (m_type m) (meta_versions m) None [] []) as [x | e] eqn:Hl; [ | discriminate Ho ].
  exact (Hv (load_keys3_Ok _ _ _ _ _ _ _ _ Hl)).
Qed.
Print Assumptions C59_no_key_set_opens_refuted.

(** A set without keys can be opened: this is all that is left of the property. *)
Theorem C59_empty_sets_open_partial ctor c rd m :
  r3_meta rd = Ok m -> meta_versions m = [] -> IsAcceptablePurpose c (m_purpose m) = true ->
  (m_encrypted m = true -> r3_encrypted rd = true) ->
  open3 ctor c rd = Ok (MkKs3 m [] [] None).
Proof.
  intros Hm Hv Hp He. unfold open3. rewrite Hm. cbn [bind]. rewrite Hp, Hv. cbn [negb load_keys3 bind].
  destruct (m_encrypted m); [ rewrite He by reflexivity | ]; reflexivity.
Qed.
Print Assumptions C59_empty_sets_open_partial.

(** ** Adding keys *)

Lemma urandom_float r n d : urandom r (PFloat n d) = Raise TypeError.
Proof. reflexivity. Qed.

(** Symmetric keys cannot even be generated: the number of bytes drawn is a float. *)
Theorem C59_no_symmetric_key_refuted d size : fails (GenKey3 d AES size) /\ fails (GenKey3 d HMAC_SHA1 size).
Proof.
  unfold GenKey3. destruct (d3_pub d) as [[[a b] c] e].
  split; destruct (negb _); try (exists KeyczarError; reflexivity); exists TypeError; reflexivity.
Qed.
Print Assumptions C59_no_symmetric_key_refuted.

Lemma gen_unique3_fails hk t size ds : fails (gen_unique3 hk t size ds).
Proof.
  destruct ds as [| d ds]; [ exists Diverge; reflexivity | cbn [gen_unique3] ].
  apply fails_bind; intros k _. apply fails_bind; intros h Hh.
  destruct (C59_no_identifier_refuted k) as [e He]. congruence.
Qed.

(** AddVersion fails on every set, whatever is drawn, and adds nothing.  (The first draw already
    fails: it is not the search for an unused identifier that does not end.) *)
Theorem C59_no_key_can_be_added_refuted ks d ds s size :
  fails (snd (AddVersion3 ks (d :: ds) s size)) /\ snd (AddVersion3 ks (d :: ds) s size) <> Raise Diverge /\
  k3_vkeys (fst (AddVersion3 ks (d :: ds) s size)) = k3_vkeys ks /\
  k3_meta (fst (AddVersion3 ks (d :: ds) s size)) = k3_meta ks.
Proof.
  unfold AddVersion3. set (sz := match size with Some z => z | None => _ end).
  destruct (negb (IsValidSize _ sz)) eqn:Hz;
    [ repeat split; [ exists KeyczarError; reflexivity | intros H; discriminate H ] | ].
  assert (He : exists e, gen_unique3 (k3_hkeys ks) (m_type (k3_meta ks)) sz (d :: ds) = Raise e /\ e <> Diverge).
  { assert (Hk : forall r k, (forall e, r = Raise e -> e <> Diverge) ->
                 (forall a, r = Ok a -> exists e : exn, k a = Raise e /\ e <> Diverge) ->
                 exists e : exn, @bind key3 (key3 * pyval) r k = Raise e /\ e <> Diverge).
    { intros [a | e] k H1 H2; [ exact (H2 a eq_refl) | exists e; split; [ reflexivity | exact (H1 e eq_refl) ] ]. }
    cbn [gen_unique3]. apply Hk.
    - intros e He ->. unfold GenKey3 in He. rewrite Hz in He. destruct (d3_pub d) as [[[a b] c] f].
      destruct (m_type (k3_meta ks)); discriminate He.
    - intros k _. unfold key3_hash_id.
      assert (Hb : forall A B (r : res A) (g : A -> res B), (forall e, r = Raise e -> e <> Diverge) ->
                 (forall a, r = Ok a -> exists e : exn, g a = Raise e /\ e <> Diverge) ->
                 exists e : exn, bind r g = Raise e /\ e <> Diverge).
      { intros A B [a | e] g H1 H2; [ exact (H2 a eq_refl) | exists e; split; [ reflexivity | exact (H1 e eq_refl) ] ]. }
      assert (Hd : forall v e, Base64WSDecode3 v = Raise e -> e <> Diverge).
      { assert (Hs : forall t e, decode_stripped3 t = Raise e -> e <> Diverge).
        { intros t e. unfold decode_stripped3. destruct (_ =? 1); [ intros [= <-]; discriminate | ].
          unfold urlsafe_b64decode. destruct (str_of_text _); [ | intros [= <-]; discriminate ].
          destruct (a2b_base64 _); [ intros HX; discriminate HX | intros [= <-]; discriminate ]. }
        intros [| t | [| ] | | |] e; try (apply Hs); intros [= <-]; discriminate. }
      assert (Hh : forall l e, Hash3 l = Raise e -> e <> Diverge).
      { assert (Hl : forall l acc e, hash_loop acc l = Raise e -> e <> Diverge).
        { induction l as [| v l IH]; intros acc e; [ intros HX; discriminate HX | cbn [hash_loop] ].
          destruct v; cbn [md_update bind]; try (intros [= <-]; discriminate); apply IH. }
        intros l e. unfold Hash3. destruct (hash_loop [] l) as [s' | e'] eqn:Hs; cbn [bind]; [ intros HX; discriminate HX | ].
        intros [= <-]. exact (Hl _ _ _ Hs). }
      assert (Hph : forall l e, PrefixHash3 l = Raise e -> e <> Diverge).
      { assert (Hl : forall l acc e, prefix_loop acc l = Raise e -> e <> Diverge).
        { induction l as [| v l IH]; intros acc e; [ intros HX; discriminate HX | cbn [prefix_loop] ].
          destruct v; cbn [py_len md_update IntToBytes3 chars bind]; intros [= <-]; discriminate. }
        intros l e. unfold PrefixHash3. destruct (prefix_loop [] l) as [s' | e'] eqn:Hs; cbn [bind]; [ intros HX; discriminate HX | ].
        intros [= <-]. exact (Hl _ _ _ Hs). }
      assert (Hm : forall l e, mapM TrimBytes3 l = Raise e -> e <> Diverge).
      { induction l as [| v l IH]; intros e; [ intros HX; discriminate HX | cbn [mapM] ].
        destruct (TrimBytes3 v) as [w | e'] eqn:Ht; cbn [bind].
        - destruct (mapM TrimBytes3 l) as [w' | e'] eqn:Hl; cbn [bind]; [ intros HX; discriminate HX | ].
          intros [= <-]. exact (IH _ eq_refl).
        - intros [= <-]. destruct v; cbn [TrimBytes3] in Ht; congruence. }
      assert (Hn : forall v e, py_len v = Raise e -> e <> Diverge) by (intros [] e [= <-]; discriminate).
      assert (Hsh : forall B (r : pyval) (g : pyval -> res B), exists e : exn, bind (short_hash3 r) g = Raise e /\ e <> Diverge).
      { intros B r g. unfold short_hash3. destruct r; cbn; eexists; (split; [ reflexivity | discriminate ]). }
      unfold params_hash3.
      assert (Hp : forall (l : list pyval) B (g : pyval -> res B),
                 exists e : exn, bind (let* l := mapM TrimBytes3 l in let* h := PrefixHash3 l in short_hash3 h) g = Raise e /\ e <> Diverge).
      { intros l B g. destruct (mapM TrimBytes3 l) as [l' | e] eqn:H1; cbn [bind];
          [ | exists e; split; [ reflexivity | exact (Hm _ _ H1) ] ].
        destruct (PrefixHash3 l') as [h | e] eqn:H2; cbn [bind]; [ apply Hsh | exists e; split; [ reflexivity | exact (Hph _ _ H2) ] ]. }
      destruct k as [s1 s2 | s1 | | | |]; try apply Hp.
      + destruct (Base64WSDecode3 s1) as [b1 | e] eqn:H1; cbn [bind]; [ | exists e; split; [ reflexivity | exact (Hd _ _ H1) ] ].
        destruct (py_len b1) as [n | e] eqn:H2; cbn [bind]; [ | exists e; split; [ reflexivity | exact (Hn _ _ H2) ] ].
        destruct (Base64WSDecode3 s2) as [b2 | e] eqn:H3; cbn [bind]; [ | exists e; split; [ reflexivity | exact (Hd _ _ H3) ] ].
        destruct (Hash3 _) as [h | e] eqn:H4; cbn [bind]; [ apply Hsh | exists e; split; [ reflexivity | exact (Hh _ _ H4) ] ].
      + destruct (Base64WSDecode3 s1) as [b1 | e] eqn:H1; cbn [bind]; [ | exists e; split; [ reflexivity | exact (Hd _ _ H1) ] ].
        destruct (Hash3 _) as [h | e] eqn:H4; cbn [bind]; [ apply Hsh | exists e; split; [ reflexivity | exact (Hh _ _ H4) ] ]. }
  destruct He as [e [-> Hne]]. cbn [fst snd].
  repeat split; [ exists e; reflexivity | congruence | destruct (status_eqb s PRIMARY); reflexivity .. ].
Qed.
Print Assumptions C59_no_key_can_be_added_refuted.

(** ** Everything that can be reached *)

(** Sets that exist in a running program: opened from any reader as any class, then changed by
    any calls.  What Promote, Demote and Revoke do to a version is left open ([f]). *)
Inductive reached3 (ctor : constructor3) : keyset3 -> Prop :=
| R3Open c rd ks : open3 ctor c rd = Ok ks -> reached3 ctor ks
| R3Add ks ds s size : reached3 ctor ks -> reached3 ctor (fst (AddVersion3 ks ds s size))
| R3Change f ks n : reached3 ctor ks -> reached3 ctor (fst (change3 f ks n)).

Lemma AddVersion3_keeps ks ds s size :
  k3_meta (fst (AddVersion3 ks ds s size)) = k3_meta ks /\ k3_vkeys (fst (AddVersion3 ks ds s size)) = k3_vkeys ks /\
  k3_hkeys (fst (AddVersion3 ks ds s size)) = k3_hkeys ks.
Proof.
  unfold AddVersion3. destruct (negb _); [ repeat split | ].
  destruct (gen_unique3_fails (k3_hkeys ks) (m_type (k3_meta ks)) (match size with Some z => z | None => default_size (m_type (k3_meta ks)) end) ds) as [e ->].
  destruct (status_eqb s PRIMARY); repeat split.
Qed.

Lemma reached3_empty ctor ks : reached3 ctor ks -> m_versions (k3_meta ks) = [] /\ k3_vkeys ks = [] /\ k3_hkeys ks = [].
Proof.
  induction 1 as [c rd ks Ho | ks ds s size H [IH1 [IH2 IH3]] | f ks n H [IH1 [IH2 IH3]]].
  - unfold open3 in Ho. destruct (r3_meta rd) as [m | e] eqn:Hm; [ cbn [bind] in Ho | discriminate Ho ].
    destruct (negb _); [ discriminate Ho | ]. destruct (_ && _); [ discriminate Ho | ].
    destruct (load_keys3 ctor rd (m_type m) (meta_versions m) None [] []) as [x | e] eqn:Hl; [ | discriminate Ho ].
    pose proof (load_keys3_Ok _ _ _ _ _ _ _ _ Hl) as Hv. rewrite Hv in Hl. cbn [load_keys3] in Hl.
    injection Hl as <-. cbn [bind] in Ho. injection Ho as <-. cbn.
    repeat split. unfold meta_versions in Hv. destruct (m_versions m); [ reflexivity | discriminate Hv ].
  - destruct (AddVersion3_keeps ks ds s size) as [H1 [H2 H3]]. rewrite H1, H2, H3. repeat split; assumption.
  - unfold change3. rewrite IH1. cbn [assoc fst]. repeat split; assumption.
Qed.

Lemma ParseHeader3_fails ks h : fails (ParseHeader3 ks h).
Proof.
  unfold ParseHeader3. apply fails_bind; intros c _. apply fails_bind; intros v _.
  destruct (negb (v =? VERSION)); [ exists (BadVersionError v); reflexivity | ].
  apply fails_bind; intros r _. exists TypeError; reflexivity.
Qed.

(** In every set a program can have, each operation that needs a key fails, for every argument,
    encoder and decoder, and whatever the key classes would do; no signature is ever accepted. *)
Theorem C59_nothing_works_refuted ctor ks ms : reached3 ctor ks ->
  (forall data enc, fails (Encrypt3 ms ks data enc)) /\
  (forall c dec, fails (Decrypt3 ms ks c dec)) /\
  (forall data enc, fails (Sign3 ms ks data enc)) /\
  (forall data sig dec, fails (Verify3 ms ks data sig dec)) /\
  (forall data nonce enc, fails (AttachedSign3 ms ks data nonce enc)) /\
  (forall blob nonce dec, fails (AttachedVerify3 ms ks blob nonce dec)) /\
  (forall data enc, fails (UnversionedSign3 ms ks data enc)) /\
  (forall data sig dec, UnversionedVerify3 ms ks data sig dec <> Ok true).
Proof.
  intros Hr. destruct (reached3_empty ctor ks Hr) as [_ [Hv _]].
  assert (Hp : fails (primary_key3 ks)).
  { unfold primary_key3, GetKey3. rewrite Hv. destruct (k3_primary ks) as [n |]; eexists; reflexivity. }
  destruct Hp as [e Hp].
  split; [ | split; [ | split; [ | split; [ | split; [ | split; [ | split ]]]]]].
  - intros data enc. unfold Encrypt3. rewrite Hp. exists e; reflexivity.
  - intros c dec. unfold Decrypt3. apply fails_bind; intros d _. apply fails_bind; intros n _.
    destruct (n <? HEADER_SIZE); [ exists (ShortCiphertextError n); reflexivity | ].
    apply fails_bind; intros h _. apply fails_bind; intros k Hk.
    destruct (ParseHeader3_fails ks h) as [e' He]. congruence.
  - intros data enc. unfold Sign3. rewrite Hp. exists e; reflexivity.
  - intros data sig dec. unfold Verify3. apply fails_bind; intros d _. apply fails_bind; intros n _.
    destruct (n <? HEADER_SIZE); [ exists (ShortSignatureError n); reflexivity | ].
    apply fails_bind; intros h _. apply fails_bind; intros r _. unfold InternalVerify3.
    apply fails_bind; intros k Hk. destruct (ParseHeader3_fails ks h) as [e' He]. congruence.
  - intros data nonce enc. unfold AttachedSign3. rewrite Hp. exists e; reflexivity.
  - intros blob nonce dec. unfold AttachedVerify3. apply fails_bind; intros d _.
    apply fails_bind; intros [x o] _. apply fails_bind; intros s _. apply fails_bind; intros h _.
    unfold InternalVerify3. apply fails_bind; intros b Hb.
    destruct (ParseHeader3_fails ks h) as [e' He]. rewrite He in Hb. discriminate Hb.
  - intros data enc. unfold UnversionedSign3. rewrite Hp. exists e; reflexivity.
  - intros data sig dec. unfold UnversionedVerify3. rewrite Hv.
    destruct (apply_codec3 dec sig); cbn [bind verify_any3]; intros H; discriminate H.
Qed.
Print Assumptions C59_nothing_works_refuted.

(** Sessions cannot be started. *)
Theorem C59_no_session_refuted r : Session_New3 r = Raise TypeError.
Proof. reflexivity. Qed.
Print Assumptions C59_no_session_refuted.

(** The hypotheses are met: a set without keys exists and is used; a set with one key, whose text
    is well formed, is refused. *)
Definition py3_empty : metadata := MkMeta (tx "Test") SIGN_AND_VERIFY HMAC_SHA1 false [].
Definition py3_one : metadata := fst (meta_AddVersion py3_empty (MkVersion 1 PRIMARY false)).
Definition py3_key : json :=
  jobj [("size"%string, JInt 256); ("hmacKeyString"%string, JStr (tx "AAAAAAAAAAAAAAAAAAAAAAAAAAAAAAAAAAAAAAAAAAA"))].
Example C59_case :
  reached3 (fun _ => Ok tt) (MkKs3 py3_empty [] [] None) /\
  ReadKey3 (fun _ => Ok tt) HMAC_SHA1 py3_key = Ok (Hmac3 (PStr (tx "AAAAAAAAAAAAAAAAAAAAAAAAAAAAAAAAAAAAAAAAAAA"))) /\
  open3 (fun _ => Ok tt) Signer (MkReader3 (Ok py3_one) (fun _ => Ok py3_key) false) = Raise TypeError.
Proof.
  split; [ | split ].
  - apply (R3Open _ Signer (MkReader3 (Ok py3_empty) (fun _ => Raise KeyczarError) false)). reflexivity.
  - vm_compute. reflexivity.
  - unfold open3. cbn [r3_meta bind]. vm_compute. reflexivity.
Qed.
