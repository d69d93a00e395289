(** * Props_Errs: further theorems for C63 (the errors for key texts that are not accepted). *)
From Coq Require Import Strings.String.
From Coq Require Import List ZArith NArith Bool Lia ZifyBool ZifyNat ZifyN.
From Coq.Init Require Import Byte.
From Verif Require Import PyBase PyFacts Base64 Base64Facts Util UtilFacts UtilFacts2 Der DerFacts Props_Der Props_Ber.
Import ListNotations.
Local Open Scope Z_scope.
Ltac Zify.zify_post_hook ::= idtac.

(** Reading numbers from a list runs past its end exactly when there are numbers only, and too few. *)
Lemma reading_short {B} (g : nat -> Z -> B) (l : list asn1) off n : forall s,
  mapM (fun i => let* v := item l (i + off) in let* z := asn1_int v in Ok (g i z)) (seq s n) = Raise IndexError <->
  exists zs, skipn (s + off) l = map AInt zs /\ (List.length zs < n)%nat.
Proof.
  induction n as [|n IH]; intros s; cbn [seq mapM]; [split; [discriminate | intros (zs & _ & C); lia]|].
  assert (SK : skipn (S s + off) l = tl (skipn (s + off) l)).
  { change (S s + off)%nat with (S (s + off)). generalize (s + off)%nat as k. clear. intros k. revert l. induction k as [|k IH]; intros [|x l]; try reflexivity. apply IH. }
  assert (NT : nth_error l (s + off) = hd_error (skipn (s + off) l)).
  { generalize (s + off)%nat as k. clear. intros k. revert l. induction k as [|k IH]; intros [|x l]; try reflexivity. apply IH. }
  unfold item at 1. rewrite NT. specialize (IH (S s)). rewrite SK in IH. destruct (skipn (s + off) l) as [|v t]; cbn [hd_error bind].
  - split; [intros _; exists []; split; [reflexivity | cbn; lia] | reflexivity].
  - destruct v as [z|b|o| |a|q]; cbn [asn1_int bind]; try (split; [discriminate | intros ([|? zs] & C & _); discriminate C]).
    cbn [tl] in IH. destruct (mapM _ (seq (S s) n)) as [r|e]; cbn [bind].
    + split; [discriminate|]. intros ([|z' zs] & C & L); [discriminate C|]. cbn in C, L. injection C as -> C. exfalso. assert (X : @Ok (list B) r = Raise IndexError) by (apply IH; exists zs; split; [exact C | lia]). discriminate X.
    + split.
      * intros H. apply Raise_inj in H. subst e. destruct (proj1 IH eq_refl) as (zs & E & L). exists (z :: zs). cbn. rewrite E. split; [reflexivity | lia].
      * intros ([|z' zs] & C & L); [discriminate C|]. cbn in C, L. injection C as -> C. rewrite (proj2 IH); [reflexivity|]. exists zs. split; [exact C | lia].
Qed.

(** The private keys with too few numbers: an RSA key without any, or with less than eight after its
    version; a DSA algorithm with less than three. *)
Inductive pkcs8_short : asn1 -> Prop :=
| EmptyRsa alg key junk v : memberless v -> ber v key ->
    pkcs8_short (ASeq [AInt 0; ASeq [AOid [1; 2; 840; 113549; 1; 1; 1]; alg]; AOctet (key ++ junk)])
| ShortRsa alg key junk zs : ber (ASeq (AInt 0 :: map AInt zs)) key -> (List.length zs < 8)%nat ->
    pkcs8_short (ASeq [AInt 0; ASeq [AOid [1; 2; 840; 113549; 1; 1; 1]; alg]; AOctet (key ++ junk)])
| ShortDsa alg zs key junk v : is_sequence alg (map AInt zs) -> (List.length zs < 3)%nat -> ber v key ->
    pkcs8_short (ASeq [AInt 0; ASeq [AOid [1; 2; 840; 10040; 4; 1]; alg]; AOctet (key ++ junk)]).

(** Every error of ParsePkcs8, with the texts it is raised for: Base64DecodingError for what is no
    Base64, PyAsn1Error for what is not encoded as it should be, KeyczarError for the structures of
    C63_private_refused, ValueError for an algorithm that is not a pair, IndexError for too few
    numbers, and TypeError or AttributeError for values of other types. *)
Theorem C63_private_errors : forall s,
  (forall e, ParsePkcs8 s = Raise e -> In e [Base64DecodingError; PyAsn1Error; KeyczarError; ValueError; IndexError; TypeError; AttributeError]) /\
  (ParsePkcs8 s = Raise Base64DecodingError <-> forall raw, Base64WSDecode s <> Ok raw) /\
  (ParsePkcs8 s = Raise PyAsn1Error <-> exists raw, Base64WSDecode s = Ok raw /\
     ((forall v e junk, raw = e ++ junk -> ~ ber v e) \/
      exists e junk oid alg k, raw = e ++ junk /\ ber (ASeq [AInt 0; ASeq [oid; alg]; k]) e /\
        (k = ANull \/ exists key, k = AOctet key /\ forall v e junk, key = e ++ junk -> ~ ber v e))) /\
  (ParsePkcs8 s = Raise ValueError <-> exists e junk a l k, Base64WSDecode s = Ok (e ++ junk) /\
     ber (ASeq [AInt 0; a; k]) e /\ is_sequence a l /\ List.length l <> 2%nat) /\
  (ParsePkcs8 s = Raise IndexError <-> exists e junk v, Base64WSDecode s = Ok (e ++ junk) /\ ber v e /\ pkcs8_short v).
Proof.
  intros s.
  assert (DN : forall raw, (forall v e junk, raw = e ++ junk -> ~ ber v e) <-> decode raw = Raise PyAsn1Error).
  { intros raw. split.
    - intros H. destruct (decode raw) as [[v rest]|e] eqn:E; [|f_equal; exact (decode_exn _ _ E)]. apply C63_decoder in E as (e & -> & HB). exfalso. exact (H v e rest eq_refl HB).
    - intros H v e junk -> HB. assert (D : decode (e ++ junk) = Ok (v, junk)) by (apply C63_decoder; exists e; split; [reflexivity | exact HB]). rewrite D in H. discriminate H. }
  assert (LE : forall e junk v x, Base64WSDecode s = Ok (e ++ junk) -> ber v e -> ParsePkcs8 s = x -> (let* sq := ParseASN1Sequence v in
      if negb (len sq =? 3) then Raise KeyczarError
      else
        let* v0 := item sq 0 in
        let* version := asn1_int v0 in
        if negb (version =? 0) then Raise KeyczarError
        else
          let* v1 := item sq 1 in
          let* ids := ParseASN1Sequence v1 in
          let* oa := unpack2 ids in
          let* v2 := item sq 2 in
          let* key := decode_octet v2 in
          if oid_is (fst oa) RSA_OID then
            let* key := ParseASN1Sequence key in
            let* k0 := item key 0 in
            let* version := asn1_int k0 in
            if negb (version =? 0) then Raise KeyczarError
            else read_params RSA_PARAMS key 1
          else if oid_is (fst oa) DSA_OID then
            let* alg := ParseASN1Sequence (snd oa) in
            let* ps := read_params DSA_PARAMS alg 0 in
            let* x := asn1_int key in
            Ok (ps ++ [("x"%string, x)])
          else Raise KeyczarError) = x).
  { intros e junk v x HR HB H. unfold ParsePkcs8, b64d in H. rewrite HR in H. cbn [bind] in H. assert (D : decode (e ++ junk) = Ok (v, junk)) by (apply C63_decoder; exists e; split; [reflexivity | exact HB]). rewrite D in H. cbn [bind fst] in H. exact H. }
  assert (RS : forall kl, read_params RSA_PARAMS kl 1 = Raise IndexError <-> exists zs, skipn 1 kl = map AInt zs /\ (List.length zs < 8)%nat) by (intros kl; exact (reading_short (fun i z => (nth i RSA_PARAMS EmptyString, z)) kl 1 8 0)).
  assert (DS : forall al, read_params DSA_PARAMS al 0 = Raise IndexError <-> exists zs, al = map AInt zs /\ (List.length zs < 3)%nat) by (intros al; exact (reading_short (fun i z => (nth i DSA_PARAMS EmptyString, z)) al 0 3 0)).
  (* every failure is of one of the kinds *)
  assert (ALL : forall x, ParsePkcs8 s = Raise x ->
     (x = Base64DecodingError /\ forall raw, Base64WSDecode s <> Ok raw) \/
     (x = PyAsn1Error /\ exists raw, Base64WSDecode s = Ok raw /\
       ((forall v e junk, raw = e ++ junk -> ~ ber v e) \/
        exists e junk oid alg k, raw = e ++ junk /\ ber (ASeq [AInt 0; ASeq [oid; alg]; k]) e /\
          (k = ANull \/ exists key, k = AOctet key /\ forall v e junk, key = e ++ junk -> ~ ber v e))) \/
     (x = ValueError /\ exists e junk a l k, Base64WSDecode s = Ok (e ++ junk) /\ ber (ASeq [AInt 0; a; k]) e /\ is_sequence a l /\ List.length l <> 2%nat) \/
     (x = IndexError /\ exists e junk v, Base64WSDecode s = Ok (e ++ junk) /\ ber v e /\ pkcs8_short v) \/
     x = KeyczarError \/ x = TypeError \/ x = AttributeError).
  { intros x H. destruct (Base64WSDecode s) as [raw|e0] eqn:ER.
    2:{ unfold ParsePkcs8, b64d in H. rewrite ER in H. cbn [bind] in H. apply Raise_inj in H. subst e0. pose proof (b64d_exn s x ER) as ->. left. split; [reflexivity|]. intros raw C. discriminate C. }
    right. destruct (decode raw) as [[v rest]|e0] eqn:ED.
    2:{ left. pose proof (decode_exn _ _ ED) as ->. unfold ParsePkcs8, b64d in H. rewrite ER in H. cbn [bind] in H. rewrite ED in H. cbn [bind] in H. apply Raise_inj in H. subst x. split; [reflexivity|]. exists raw. split; [reflexivity|]. left. apply DN. exact ED. }
    apply C63_decoder in ED as (e & -> & HB). pose proof (LE e rest v _ eq_refl HB H) as H0. clear H. rename H0 into H.
    apply bind_Raise in H as [H|(sq & HS & H)]; [apply sequence_exn in H as [H|H]; subst x; tauto|]. destruct (len sq =? 3) eqn:E3; cbn [negb] in H; [|apply Raise_inj in H; subst x; tauto].
    apply len3 in E3 as (a & b & c & ->). apply sequence_is in HS. destruct HS as [->|[C _]]; [|discriminate C]. cbn [item nth_error bind] in H.
    apply bind_Raise in H as [H|(z & HZ & H)]; [apply int_exn in H; subst x; tauto|]. apply int_ok in HZ. subst a. destruct (z =? 0) eqn:EZ; cbn [negb] in H; [|apply Raise_inj in H; subst x; tauto]. apply Z.eqb_eq in EZ. subst z.
    apply bind_Raise in H as [H|(ids & HI & H)]; [apply sequence_exn in H as [H|H]; subst x; tauto|]. apply sequence_is in HI.
    apply bind_Raise in H as [H|([oid alg] & HO & H)].
    { pose proof (unpack2_exn _ _ H) as ->. right. left. split; [reflexivity|]. exists e, rest, b, ids, c. split; [reflexivity|]. split; [exact HB|]. split; [exact HI|]. intros C. destruct ids as [|i1 [|i2 [|]]]; try discriminate C. discriminate H. }
    apply unpack2_ok in HO. cbn [fst snd] in *. subst ids. destruct HI as [->|[C _]]; [|discriminate C].
    apply bind_Raise in H as [H|(key & HK & H)].
    { destruct c as [z|bt|ks| |ar|q]; cbn [decode_octet] in H; try (apply Raise_inj in H; subst x; tauto).
      - apply bind_Raise in H as [H|(p & _ & H)]; [|discriminate H]. pose proof (decode_exn _ _ H) as ->. left. split; [reflexivity|]. exists (e ++ rest). split; [reflexivity|]. right. exists e, rest, oid, alg, (AOctet ks). split; [reflexivity|]. split; [exact HB|]. right. exists ks. split; [reflexivity|]. apply DN. exact H.
      - apply Raise_inj in H. subst x. left. split; [reflexivity|]. exists (e ++ rest). split; [reflexivity|]. right. exists e, rest, oid, alg, ANull. split; [reflexivity|]. split; [exact HB|]. left. reflexivity. }
    destruct c as [|?|ks| | |]; try discriminate HK. cbn [decode_octet] in HK. apply bind_Ok in HK as ([kv krest] & HD & HK). apply Ok_inj in HK. cbn [fst] in HK. subst kv. apply C63_decoder in HD as (ke & -> & HKB).
    destruct (oid_is oid RSA_OID) eqn:E1.
    - apply oid_ok_eq in E1. subst oid. apply bind_Raise in H as [H|(kl & HL & H)]; [apply sequence_exn in H as [H|H]; subst x; tauto|].
      apply bind_Raise in H as [H|(k0 & HI0 & H)].
      + pose proof (item_exn _ _ _ H) as ->. right. right. left. split; [reflexivity|]. eexists e, rest, _. split; [reflexivity|]. split; [exact HB|]. apply (EmptyRsa alg ke krest key); [|exact HKB].
        destruct kl; [|discriminate H]. apply sequence_nil. exact HL.
      + apply bind_Raise in H as [H|(z & HZ & H)]; [apply int_exn in H; subst x; tauto|]. apply int_ok in HZ. subst k0. destruct (z =? 0) eqn:EZ; cbn [negb] in H; [|apply Raise_inj in H; subst x; tauto]. apply Z.eqb_eq in EZ. subst z.
        destruct (read_params_exn _ _ _ _ H) as [->| ->]; [tauto|]. right. right. left. split; [reflexivity|]. eexists e, rest, _. split; [reflexivity|]. split; [exact HB|].
        apply RS in H as (zs & E & L). destruct kl as [|k1 kl]; [discriminate HI0|]. cbn in HI0, E. apply Ok_inj in HI0. subst k1 kl. apply sequence_is in HL as [->|[C _]]; [|discriminate C]. exact (ShortRsa alg ke krest zs HKB L).
    - destruct (oid_is oid DSA_OID) eqn:E2; [|apply Raise_inj in H; subst x; tauto]. apply oid_ok_eq in E2. subst oid.
      apply bind_Raise in H as [H|(al & HL & H)]; [apply sequence_exn in H as [H|H]; subst x; tauto|].
      apply bind_Raise in H as [H|(ps & _ & H)]; [|apply bind_Raise in H as [H|(y & _ & H)]; [apply int_exn in H; subst x; tauto | discriminate H]].
      destruct (read_params_exn _ _ _ _ H) as [->| ->]; [tauto|]. right. right. left. split; [reflexivity|]. eexists e, rest, _. split; [reflexivity|]. split; [exact HB|].
      apply DS in H as (zs & -> & L). apply sequence_is in HL. exact (ShortDsa alg zs ke krest key HL L HKB). }
  split; [intros e H; destruct (ALL e H) as [[-> _]|[[-> _]|[[-> _]|[[-> _]|[->|[->| ->]]]]]]; cbn; tauto|].
  split; [|split; [|split]]; split.
  - intros H. destruct (ALL _ H) as [[_ K]|[[K _]|[[K _]|[[K _]|[K|[K|K]]]]]]; try discriminate K. exact K.
  - intros H. unfold ParsePkcs8. destruct (b64d s) as [raw|x] eqn:E; [exfalso; exact (H raw E)|]. cbn [bind]. f_equal. exact (b64d_exn s x E).
  - intros H. destruct (ALL _ H) as [[K _]|[[_ K]|[[K _]|[[K _]|[K|[K|K]]]]]]; try discriminate K. exact K.
  - intros (raw & HR & [HN|(e & junk & oid & alg & k & -> & HB & HK)]).
    + apply DN in HN. unfold ParsePkcs8, b64d. rewrite HR. cbn [bind]. rewrite HN. reflexivity.
    + rewrite <- (LE _ _ _ _ HR HB eq_refl). rewrite ParseASN1Sequence_ASeq. cbn [bind item nth_error asn1_int]. change (negb (len _ =? 3)) with false. change (negb (0 =? 0)) with false. cbn iota. rewrite ParseASN1Sequence_ASeq. cbn [bind unpack2].
      destruct HK as [->|(key & -> & HN)]; [reflexivity|]. apply DN in HN. cbn [decode_octet]. rewrite HN. reflexivity.
  - intros H. destruct (ALL _ H) as [[K _]|[[K _]|[[_ K]|[[K _]|[K|[K|K]]]]]]; try discriminate K. exact K.
  - intros (e & junk & a & l & k & HR & HB & HS & HL). rewrite <- (LE _ _ _ _ HR HB eq_refl). rewrite ParseASN1Sequence_ASeq. cbn [bind item nth_error asn1_int]. change (negb (len _ =? 3)) with false. change (negb (0 =? 0)) with false. cbn iota.
    apply sequence_is in HS. rewrite HS. cbn [bind]. destruct l as [|l1 [|l2 [|l3 l]]]; try reflexivity. exfalso. apply HL. reflexivity.
  - intros H. destruct (ALL _ H) as [[K _]|[[K _]|[[K _]|[[_ K]|[K|[K|K]]]]]]; try discriminate K. exact K.
  - intros (e & junk & v & HR & HB & HP). rewrite <- (LE _ _ _ _ HR HB eq_refl). clear LE HB HR.
    destruct HP as [alg key kj w HM HK|alg key kj zs HK HL|alg zs key kj w HS HL HK]; rewrite ParseASN1Sequence_ASeq; cbn [bind item nth_error asn1_int]; change (negb (len _ =? 3)) with false; change (negb (0 =? 0)) with false; cbn iota; rewrite ParseASN1Sequence_ASeq; cbn [bind unpack2 decode_octet fst snd].
    + assert (D : decode (key ++ kj) = Ok (w, kj)) by (apply C63_decoder; exists key; split; [reflexivity | exact HK]). rewrite D. cbn [bind fst]. change (oid_is _ RSA_OID) with true. cbn iota. rewrite (memberless_sequence _ HM). reflexivity.
    + assert (D : decode (key ++ kj) = Ok (ASeq (AInt 0 :: map AInt zs), kj)) by (apply C63_decoder; exists key; split; [reflexivity | exact HK]). rewrite D. cbn [bind fst]. change (oid_is _ RSA_OID) with true. cbn iota.
      rewrite ParseASN1Sequence_ASeq. cbn [bind item nth_error asn1_int]. change (negb (0 =? 0)) with false. cbn iota. apply RS. exists zs. split; [reflexivity | exact HL].
    + assert (D : decode (key ++ kj) = Ok (w, kj)) by (apply C63_decoder; exists key; split; [reflexivity | exact HK]). rewrite D. cbn [bind fst]. change (oid_is _ RSA_OID) with false. change (oid_is _ DSA_OID) with true. cbn iota.
      apply sequence_is in HS. rewrite HS. cbn [bind]. rewrite (proj2 (DS _)); [reflexivity|]. exists zs. split; [reflexivity | exact HL].
Qed.
Print Assumptions C63_private_errors.

Lemma BinToBytes_total bits x : binary bits -> BinToBytes bits <> Raise x.
Proof.
  intros F H. destruct (PadByte_fill bits) as (z & HZ & HP & HM). rewrite BinToBytes_pad in H.
  assert (FB : binary (PadByte bits)) by (rewrite HP; apply Forall_app; split; [apply rep_binary | exact F]).
  destruct (octets_of_bits (Z.to_nat (len (PadByte bits) / 8)) (PadByte bits) FB) as (k & HK).
  { pose proof (len_nonneg (PadByte bits)). pose proof (Z.div_mod (len (PadByte bits)) 8 ltac:(lia)). rewrite Z2Nat.id by (apply Z.div_pos; lia). lia. }
  rewrite <- HK, <- BytesToBin_bits, BinToBytes_BytesToBin in H. discriminate H.
Qed.
Lemma ints_exn l x : mapM asn1_int l = Raise x -> x = TypeError.
Proof. intros H. apply mapM_exn in H as (a & H). exact (int_exn _ _ H). Qed.
Lemma ints_ok l zs : mapM asn1_int l = Ok zs <-> l = map AInt zs.
Proof.
  revert zs. induction l as [|v l IH]; intros zs; cbn [mapM].
  - split; [intros H; apply Ok_inj in H as <-; reflexivity | intros H; destruct zs; [reflexivity | discriminate H]].
  - split.
    + intros H. apply bind_Ok in H as (z & HZ & H). apply bind_Ok in H as (r & HR & H). apply Ok_inj in H as <-. apply int_ok in HZ. subst v. cbn. f_equal. apply IH, HR.
    + intros H. destruct zs as [|z zs]; [discriminate H|]. injection H as -> ->. cbn [asn1_int bind]. rewrite (proj2 (IH zs) eq_refl). reflexivity.
Qed.
Lemma picking_short (vals : list Z) names n : forall s,
  (mapM (fun i => let* z := item vals i in Ok (nth i names EmptyString, z)) (seq s n) = Raise IndexError <-> (List.length vals < s + n)%nat /\ (0 < n)%nat).
Proof.
  induction n as [|n IH]; intros s; cbn [seq mapM]; [split; [discriminate | lia]|]. unfold item at 1. destruct (nth_error vals s) as [z|] eqn:E; cbn [bind].
  - assert (S0 : (s < List.length vals)%nat) by (apply nth_error_Some; congruence). specialize (IH (S s)). destruct (mapM _ (seq (S s) n)) as [r|x]; cbn [bind].
    + split; [discriminate|]. intros [A _]. exfalso. destruct n as [|n]; [lia|]. assert (X : @Ok (list (string * Z)) r = Raise IndexError) by (apply IH; lia). discriminate X.
    + split; [intros H; apply Raise_inj in H; subst x; destruct (proj1 IH eq_refl); lia|]. intros [A _]. destruct n as [|n]; [lia|]. rewrite (proj2 IH) by lia. reflexivity.
  - apply nth_error_None in E. split; [intros _; lia | reflexivity].
Qed.

(** Every error of ParseX509.  (That a second member of another type than BIT STRING gives ValueError
    is a simplification, see [bits_bytes].) *)
Theorem C63_public_errors : forall s,
  (forall e, ParseX509 s = Raise e -> In e [Base64DecodingError; PyAsn1Error; KeyczarError; ValueError; IndexError; TypeError; AttributeError]) /\
  (ParseX509 s = Raise Base64DecodingError <-> forall raw, Base64WSDecode s <> Ok raw) /\
  (ParseX509 s = Raise PyAsn1Error <-> exists raw, Base64WSDecode s = Ok raw /\
     ((forall v e junk, raw = e ++ junk -> ~ ber v e) \/
      exists e junk oid alg bits key, raw = e ++ junk /\ ber (ASeq [ASeq [oid; alg]; ABits bits]) e /\
        left_filled bits key /\ forall v e junk, key = e ++ junk -> ~ ber v e)) /\
  (ParseX509 s = Raise ValueError <-> exists e junk, Base64WSDecode s = Ok (e ++ junk) /\
     ((exists a l k, ber (ASeq [a; k]) e /\ is_sequence a l /\ (List.length l <> 2%nat \/ forall bits, k <> ABits bits)) \/
      exists alg bits key kj v zs, ber (ASeq [ASeq [AOid [1; 2; 840; 113549; 1; 1; 1]; alg]; ABits bits]) e /\
        left_filled bits (key ++ kj) /\ ber v key /\ is_sequence v (map AInt zs) /\ List.length zs <> 2%nat)) /\
  (ParseX509 s = Raise IndexError <-> exists e junk alg bits key kj v zs, Base64WSDecode s = Ok (e ++ junk) /\
     ber (ASeq [ASeq [AOid [1; 2; 840; 10040; 4; 1]; alg]; ABits bits]) e /\ left_filled bits (key ++ kj) /\ ber v key /\
     is_sequence alg (map AInt zs) /\ (List.length zs < 3)%nat).
Proof.
  intros s.
  assert (DN : forall raw, (forall v e junk, raw = e ++ junk -> ~ ber v e) <-> decode raw = Raise PyAsn1Error).
  { intros raw. split.
    - intros H. destruct (decode raw) as [[v rest]|e] eqn:E; [|f_equal; exact (decode_exn _ _ E)]. apply C63_decoder in E as (e & -> & HB). exfalso. exact (H v e rest eq_refl HB).
    - intros H v e junk -> HB. assert (D : decode (e ++ junk) = Ok (v, junk)) by (apply C63_decoder; exists e; split; [reflexivity | exact HB]). rewrite D in H. discriminate H. }
  assert (DC : forall v e junk, ber v e -> decode (e ++ junk) = Ok (v, junk)) by (intros v e junk HB; apply C63_decoder; exists e; split; [reflexivity | exact HB]).
  assert (LE : forall e junk a k x, Base64WSDecode s = Ok (e ++ junk) -> ber (ASeq [a; k]) e -> ParseX509 s = x -> (
      let* ids := ParseASN1Sequence a in
      let* oa := unpack2 ids in
      let* kb := bits_bytes k in
      let* pk := decode kb in
      if oid_is (fst oa) RSA_OID then
        let* l := ParseASN1Sequence (fst pk) in
        let* zs := mapM asn1_int l in
        let* ne := unpack2 zs in
        Ok [("n"%string, fst ne); ("e"%string, snd ne)]
      else if oid_is (fst oa) DSA_OID then
        let* l := ParseASN1Sequence (snd oa) in
        let* vals := mapM asn1_int l in
        let* ps := mapM (fun i => let* z := item vals i in Ok (nth i DSA_PARAMS EmptyString, z)) (seq 0 (List.length DSA_PARAMS)) in
        let* y := asn1_int (fst pk) in
        Ok (ps ++ [("y"%string, y)])
      else Raise KeyczarError) = x).
  { intros e junk a k x HR HB H. unfold ParseX509, b64d in H. rewrite HR in H. cbn [bind] in H. rewrite (DC _ _ junk HB) in H. cbn [bind fst] in H. rewrite ParseASN1Sequence_ASeq in H. cbn [bind item nth_error] in H. change (negb (len _ =? 2)) with false in H. cbn iota in H. exact H. }
  assert (ALL : forall x, ParseX509 s = Raise x ->
     (x = Base64DecodingError /\ forall raw, Base64WSDecode s <> Ok raw) \/
     (x = PyAsn1Error /\ exists raw, Base64WSDecode s = Ok raw /\
       ((forall v e junk, raw = e ++ junk -> ~ ber v e) \/
        exists e junk oid alg bits key, raw = e ++ junk /\ ber (ASeq [ASeq [oid; alg]; ABits bits]) e /\
          left_filled bits key /\ forall v e junk, key = e ++ junk -> ~ ber v e)) \/
     (x = ValueError /\ exists e junk, Base64WSDecode s = Ok (e ++ junk) /\
       ((exists a l k, ber (ASeq [a; k]) e /\ is_sequence a l /\ (List.length l <> 2%nat \/ forall bits, k <> ABits bits)) \/
        exists alg bits key kj v zs, ber (ASeq [ASeq [AOid [1; 2; 840; 113549; 1; 1; 1]; alg]; ABits bits]) e /\
          left_filled bits (key ++ kj) /\ ber v key /\ is_sequence v (map AInt zs) /\ List.length zs <> 2%nat)) \/
     (x = IndexError /\ exists e junk alg bits key kj v zs, Base64WSDecode s = Ok (e ++ junk) /\
       ber (ASeq [ASeq [AOid [1; 2; 840; 10040; 4; 1]; alg]; ABits bits]) e /\ left_filled bits (key ++ kj) /\ ber v key /\
       is_sequence alg (map AInt zs) /\ (List.length zs < 3)%nat) \/
     x = KeyczarError \/ x = TypeError \/ x = AttributeError).
  { intros x H. destruct (Base64WSDecode s) as [raw|e0] eqn:ER.
    2:{ unfold ParseX509, b64d in H. rewrite ER in H. cbn [bind] in H. apply Raise_inj in H. subst e0. pose proof (b64d_exn s x ER) as ->. left. split; [reflexivity|]. intros raw C. discriminate C. }
    right. destruct (decode raw) as [[v rest]|e0] eqn:ED.
    2:{ left. pose proof (decode_exn _ _ ED) as ->. unfold ParseX509, b64d in H. rewrite ER in H. cbn [bind] in H. rewrite ED in H. cbn [bind] in H. apply Raise_inj in H. subst x. split; [reflexivity|]. exists raw. split; [reflexivity|]. left. apply DN. exact ED. }
    pose proof ED as ED0. apply C63_decoder in ED as (e & -> & HB).
    assert (SH : (exists a k, v = ASeq [a; k]) \/ x = KeyczarError \/ x = TypeError \/ x = AttributeError).
    { unfold ParseX509, b64d in H. rewrite ER in H. cbn [bind] in H. rewrite ED0 in H. cbn [bind fst] in H. apply bind_Raise in H as [H|(sq & HS & H)]; [apply sequence_exn in H as [H|H]; subst x; tauto|].
      destruct (len sq =? 2) eqn:E2; cbn [negb] in H; [|apply Raise_inj in H; subst x; tauto]. apply len2 in E2 as (a & b & ->). apply sequence_is in HS. destruct HS as [->|[C _]]; [|discriminate C]. left. exists a, b. reflexivity. }
    destruct SH as [(a & k & ->)|SH]; [|tauto]. pose proof (LE e rest a k _ eq_refl HB H) as H0. clear H. rename H0 into H.
    apply bind_Raise in H as [H|(ids & HI & H)]; [apply sequence_exn in H as [H|H]; subst x; tauto|]. apply sequence_is in HI.
    apply bind_Raise in H as [H|([oid alg] & HO & H)].
    { pose proof (unpack2_exn _ _ H) as ->. right. left. split; [reflexivity|]. exists e, rest. split; [reflexivity|]. left. exists a, ids, k. split; [exact HB|]. split; [exact HI|]. left. intros C. destruct ids as [|i1 [|i2 [|]]]; try discriminate C. discriminate H. }
    apply unpack2_ok in HO. cbn [fst snd] in *. subst ids.
    assert (NB : (exists bits, k = ABits bits) \/ (forall bits, k <> ABits bits)) by (destruct k; [right | left; eexists; reflexivity | right ..]; intros bits; discriminate).
    destruct NB as [(bits & ->)|NB].
    2:{ apply bind_Raise in H as [H|(kb & HK & _)]; [|destruct k; try discriminate HK; exfalso; eapply NB; reflexivity]. right. left.
        split; [destruct k; cbn [bits_bytes] in H; try (apply Raise_inj in H; subst x; reflexivity); exfalso; eapply NB; reflexivity|]. exists e, rest. split; [reflexivity|]. left. exists a, [oid; alg], k. split; [exact HB|]. split; [exact HI|]. right. exact NB. }
    destruct HI as [->|[C _]]; [|discriminate C]. assert (BB : binary bits) by (eapply ber_seq_bits; exact HB).
    apply bind_Raise in H as [H|(kb & HK & H)]; [exfalso; cbn [bits_bytes] in H; exact (BinToBytes_total bits x BB H)|]. cbn [bits_bytes] in HK. apply BinToBytes_iff in HK; [|exact BB].
    apply bind_Raise in H as [H|([kv krest] & HD & H)].
    { pose proof (decode_exn _ _ H) as ->. left. split; [reflexivity|]. exists (e ++ rest). split; [reflexivity|]. right. exists e, rest, oid, alg, bits, kb. split; [reflexivity|]. split; [exact HB|]. split; [exact HK|]. apply DN. exact H. }
    apply C63_decoder in HD as (ke & -> & HKB). cbn [fst snd] in H. destruct (oid_is oid RSA_OID) eqn:E1.
    - apply oid_ok_eq in E1. subst oid. apply bind_Raise in H as [H|(l & HL & H)]; [apply sequence_exn in H as [H|H]; subst x; tauto|]. apply bind_Raise in H as [H|(zs & HZ & H)]; [apply ints_exn in H; subst x; tauto|]. apply ints_ok in HZ. subst l. apply sequence_is in HL.
      apply bind_Raise in H as [H|(ne & _ & H)]; [|discriminate H]. pose proof (unpack2_exn _ _ H) as ->. right. left. split; [reflexivity|]. exists e, rest. split; [reflexivity|]. right. exists alg, bits, ke, krest, kv, zs.
      split; [exact HB|]. split; [exact HK|]. split; [exact HKB|]. split; [exact HL|]. intros C. destruct zs as [|z1 [|z2 [|]]]; try discriminate C. discriminate H.
    - destruct (oid_is oid DSA_OID) eqn:E2; [|apply Raise_inj in H; subst x; tauto]. apply oid_ok_eq in E2. subst oid.
      apply bind_Raise in H as [H|(l & HL & H)]; [apply sequence_exn in H as [H|H]; subst x; tauto|]. apply bind_Raise in H as [H|(zs & HZ & H)]; [apply ints_exn in H; subst x; tauto|]. apply ints_ok in HZ. subst l. apply sequence_is in HL.
      apply bind_Raise in H as [H|(ps & _ & H)]; [|apply bind_Raise in H as [H|(y & _ & H)]; [apply int_exn in H; subst x; tauto | discriminate H]].
      assert (x = IndexError) as -> by (apply mapM_exn in H as (i & H); apply bind_Raise in H as [H|(z & _ & H)]; [exact (item_exn _ _ _ H) | discriminate H]).
      apply (picking_short zs DSA_PARAMS 3 0) in H. right. right. left. split; [reflexivity|]. exists e, rest, alg, bits, ke, krest, kv, zs. split; [reflexivity|]. split; [exact HB|]. split; [exact HK|]. split; [exact HKB|]. split; [exact HL | lia]. }
  split; [intros e H; destruct (ALL e H) as [[-> _]|[[-> _]|[[-> _]|[[-> _]|[->|[->| ->]]]]]]; cbn; tauto|].
  split; [|split; [|split]]; split.
  - intros H. destruct (ALL _ H) as [[_ K]|[[K _]|[[K _]|[[K _]|[K|[K|K]]]]]]; try discriminate K. exact K.
  - intros H. unfold ParseX509. destruct (b64d s) as [raw|x] eqn:E; [exfalso; exact (H raw E)|]. cbn [bind]. f_equal. exact (b64d_exn s x E).
  - intros H. destruct (ALL _ H) as [[K _]|[[_ K]|[[K _]|[[K _]|[K|[K|K]]]]]]; try discriminate K. exact K.
  - intros (raw & HR & [HN|(e & junk & oid & alg & bits & key & -> & HB & HF & HN)]).
    + apply DN in HN. unfold ParseX509, b64d. rewrite HR. cbn [bind]. rewrite HN. reflexivity.
    + rewrite <- (LE _ _ _ _ _ HR HB eq_refl). rewrite ParseASN1Sequence_ASeq. cbn [bind unpack2 bits_bytes]. apply BinToBytes_iff in HF; [|eapply ber_seq_bits; exact HB]. rewrite HF. cbn [bind]. apply DN in HN. rewrite HN. reflexivity.
  - intros H. destruct (ALL _ H) as [[K _]|[[K _]|[[_ K]|[[K _]|[K|[K|K]]]]]]; try discriminate K. exact K.
  - intros (e & junk & HR & [(a & l & k & HB & HS & HN)|(alg & bits & key & kj & v & zs & HB & HF & HK & HS & HN)]); rewrite <- (LE _ _ _ _ _ HR HB eq_refl).
    + apply sequence_is in HS. rewrite HS. cbn [bind]. destruct l as [|l1 [|l2 [|l3 l]]]; try reflexivity. destruct HN as [HN|HN]; [exfalso; apply HN; reflexivity|]. cbn [unpack2 bind]. destruct k; try reflexivity. exfalso. eapply HN. reflexivity.
    + rewrite ParseASN1Sequence_ASeq. cbn [bind unpack2 bits_bytes]. apply BinToBytes_iff in HF; [|eapply ber_seq_bits; exact HB]. rewrite HF. cbn [bind]. rewrite (DC _ _ kj HK). cbn [bind fst snd]. change (oid_is _ RSA_OID) with true. cbn iota.
      apply sequence_is in HS. rewrite HS. cbn [bind]. rewrite (proj2 (ints_ok _ zs) eq_refl). cbn [bind]. destruct zs as [|z1 [|z2 [|z3 zs]]]; try reflexivity. exfalso. apply HN. reflexivity.
  - intros H. destruct (ALL _ H) as [[K _]|[[K _]|[[K _]|[[_ K]|[K|[K|K]]]]]]; try discriminate K. exact K.
  - intros (e & junk & alg & bits & key & kj & v & zs & HR & HB & HF & HK & HS & HL). rewrite <- (LE _ _ _ _ _ HR HB eq_refl). rewrite ParseASN1Sequence_ASeq. cbn [bind unpack2 bits_bytes]. apply BinToBytes_iff in HF; [|eapply ber_seq_bits; exact HB]. rewrite HF. cbn [bind]. rewrite (DC _ _ kj HK). cbn [bind fst snd].
    change (oid_is _ RSA_OID) with false. change (oid_is _ DSA_OID) with true. cbn iota. apply sequence_is in HS. rewrite HS. cbn [bind]. rewrite (proj2 (ints_ok _ zs) eq_refl). cbn [bind]. change (seq 0 (List.length DSA_PARAMS)) with (seq 0 3). rewrite (proj2 (picking_short zs DSA_PARAMS 3 0)) by lia. reflexivity.
Qed.
Print Assumptions C63_public_errors.

(** Texts with each of the errors: no Base64, a truncated value, an algorithm with three members, an
    RSA key with the version only, a number in place of the structure, and octets in its place. *)
Example C63_private_errors_case :
  ParsePkcs8 (bs "*") = Raise Base64DecodingError /\ ParsePkcs8 (bs "MAM") = Raise PyAsn1Error /\
  (exists s, encode (ASeq [AInt 0; ASeq [ANull; ANull; ANull]; ANull]) = Ok s /\ ParsePkcs8 (Base64WSEncode s) = Raise ValueError) /\
  (exists k s, encode (ASeq [AInt 0]) = Ok k /\ encode (ASeq [AInt 0; ASeq [AOid RSA_OID; ANull]; AOctet k]) = Ok s /\ ParsePkcs8 (Base64WSEncode s) = Raise IndexError) /\
  (exists s, encode (AInt 7) = Ok s /\ ParsePkcs8 (Base64WSEncode s) = Raise TypeError) /\
  (exists s, encode (AOctet (bs "x")) = Ok s /\ ParsePkcs8 (Base64WSEncode s) = Raise AttributeError).
Proof.
  split; [vm_compute; reflexivity|]. split; [vm_compute; reflexivity|]. split; [eexists; split; [vm_compute; reflexivity | vm_compute; reflexivity]|].
  split; [eexists; eexists; split; [vm_compute; reflexivity|]; split; [vm_compute; reflexivity | vm_compute; reflexivity]|]. split; (eexists; split; [vm_compute; reflexivity | vm_compute; reflexivity]).
Qed.
Example C63_public_errors_case :
  ParseX509 (bs "*") = Raise Base64DecodingError /\ ParseX509 (bs "MAM") = Raise PyAsn1Error /\
  (exists k s, encode (ASeq [AInt 1; AInt 2; AInt 3]) = Ok k /\ encode (ASeq [ASeq [AOid RSA_OID; ANull]; ABits (BytesToBin k)]) = Ok s /\ ParseX509 (Base64WSEncode s) = Raise ValueError) /\
  (exists k s, encode (AInt 7) = Ok k /\ encode (ASeq [ASeq [AOid DSA_OID; ASeq [AInt 1; AInt 2]]; ABits (BytesToBin k)]) = Ok s /\ ParseX509 (Base64WSEncode s) = Raise IndexError).
Proof.
  split; [vm_compute; reflexivity|]. split; [vm_compute; reflexivity|].
  split; (eexists; eexists; split; [vm_compute; reflexivity|]; split; [vm_compute; reflexivity | vm_compute; reflexivity]).
Qed.
