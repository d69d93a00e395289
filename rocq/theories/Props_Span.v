(** * Props_Span: C79, streams and sessions that span several processes and the life of the key sets.

    C51, C52, C40 and C41 speak of key sets as values.  Here one process writes the stream or starts the session with
    the key set as it is on disk, command lines are run, and another process opens what is on disk then (see C69). *)
From Coq Require Import Strings.String.
From Coq Require Import List ZArith NArith Bool Lia ZifyBool ZifyNat ZifyN.
From Coq.Init Require Import Byte.
From Verif Require Import PyBase PyFacts Sha1 Base64 Base64Facts Util UtilFacts Json KeyInfo Aes AesFacts SymKeys SymFacts AsymSpec AsymKeys AsymFacts Keys KeysFacts KeyData Keyczar KeyRing
  KeyczarFacts Session Streams StreamFacts Props_Util Props_Sym Props_Asym Props_Keyset Props_Sign Disk Keyczart DiskFacts CrashFacts Props_Disk Props_Tool Props_Cmd Props_Session Props_Stream GenKeySet
  Props_Gen Props_Crypter Props_Life Demo1024.
Import ListNotations.
Local Open Scope Z_scope.
Ltac Zify.zify_post_hook ::= idtac.

(** ** Specification *)

(** The command lines between two processes: well formed, none replaces the set at [l] as a whole, none revokes version [n]. *)
Definition harmless (l : str) (n : Z) (xs : list line) : Prop :=
  Forall line_ok xs /\ Forall (respects l) xs /\ Forall (fun x => ~ revokes l n x) xs.

(** Every way of reading the encrypted stream [ct] with [ks], from any channel ([plan] tells what arrives when) and with any
    sequence [cs] of sizes asked for, yields [p] (see C52); [b64] tells whether the stream is in Base64. *)
Definition streams_back (ks : keyset) (b64 : bool) (ct p : str) : Prop :=
  forall plan fuel cs, (List.length plan + List.length ct < fuel)%nat ->
    if b64 then faithful p cs (dr_reads (b64_source chan_read fuel) fuel (CreateDecryptingStreamReader ks) (br_new (MkChan plan ct)) cs)
    else faithful p cs (dr_reads chan_read fuel (CreateDecryptingStreamReader ks) (MkChan plan ct) cs).

(** ** Which sets can stream *)

Lemma writer_inv ks k r b64 w n : reached ks -> ring_of ks n = Some (PRIMARY, k) -> CreateEncryptingStreamWriter ks r b64 = Ok w ->
  exists a kb hb, k = KAes a /\ aes_primary ks a kb hb.
Proof.
  intros R HR H. assert (SG : signer_of ks k) by (split; [exact R | exists n; exact HR]). destruct (signer_primary ks k SG) as (EP & _).
  unfold CreateEncryptingStreamWriter in H. rewrite EP in H. cbn [bind] in H. destruct k as [a| | | | |]; try discriminate H. cbn [EncryptingStreamWriter] in H.
  apply bind_Ok in H as (h & Hh & H). apply bind_Ok in H as (kb & Hk & H). apply bind_Ok in H as (ci & HC & H).
  unfold CreateStreamable in Hh. apply bind_Ok in Hh as (hb & Hb & _).
  exists a, kb, hb. split; [reflexivity|]. split; [exact SG|]. split; [split; assumption|].
  assert (HS : aes_size_ok kb \/ ~ aes_size_ok kb) by (unfold aes_size_ok; lia). destruct HS as [HS|HS]; [exact HS|]. exfalso. revert HC. unfold AES_new, aes_size_ok in *.
  replace ((len kb =? 16) || (len kb =? 24) || (len kb =? 32)) with false by (symmetry; lia). discriminate.
Qed.

Lemma encrypted_primary ks a e data ct n : reached ks -> ring_of ks n = Some (PRIMARY, KAes a) -> Encrypt e ks data None = Ok ct ->
  exists kb hb, aes_primary ks a kb hb.
Proof.
  intros R HR H. assert (SG : signer_of ks (KAes a)) by (split; [exact R | exists n; exact HR]). destruct (signer_primary ks _ SG) as (EP & id & HH & _).
  unfold Encrypt in H. rewrite EP in H. cbn [bind key_Encrypt apply_codec] in H. apply bind_Ok in H as (raw & H & _). cbn [key_hash_id] in HH. unfold aes_hash_id in HH.
  apply bind_Ok in HH as (kb & Hk & HH). apply bind_Ok in HH as (hb & Hh & _). assert (HM : aes_material a kb hb) by (split; assumption). exists kb, hb. split; [exact SG|]. split; [exact HM|].
  assert (HS : aes_size_ok kb \/ ~ aes_size_ok kb) by (unfold aes_size_ok; lia). destruct HS as [HS|HS]; [exact HS|].
  rewrite (C17_bad_key_length_refused _ _ _ _ _ _ HM HS) in H. discriminate H.
Qed.

Lemma read_back e A a kb hb p B n (b64 : bool) ct : aes_primary A a kb hb -> holds B n (KAes a) -> Encrypt e A p (if b64 then b64_encoder else None) = Ok ct -> streams_back B b64 ct p.
Proof.
  intros HP HB HE plan fuel cs HF. destruct b64.
  - apply (C52_any_schedule_base64 e A a kb hb p ct B n plan fuel fuel cs HP HB HE HF). lia.
  - apply (C52_any_schedule e A a kb hb p ct B n plan fuel cs HP HB HE HF).
Qed.

(** The set that was exported has the private key for every public key of the export. *)
Lemma read_only_ring gen l d f A y ys f1 E n pub c : tool_made gen l f ->
  exec (read_location c l) f = (f, Ok A) -> ks_purpose A = DECRYPT_AND_ENCRYPT -> ks_type A <> AES -> has_dir f d = true -> l <> d ->
  line_ok y -> exports l d y -> harmless l n ys -> Forall (leaves d) ys -> f1 = run_lines gen (y :: ys) f ->
  exec (read_location Encrypter d) f1 = (f1, Ok E) -> ring_of E n = Some (PRIMARY, pub) ->
  exists s k, ring_of A n = Some (s, k) /\ public_key k = Ok pub /\ holds A n k.
Proof.
  intros TM HA PA TA HD NE OKy EXP (OKs & RSs & NRs) LVs EF HE HR.
  destruct (tool_made_plain _ _ _ TM) as (name & p & a & t & ks & HN & HI & P & L & D). apply read_loadable in HA as [LA AA].
  assert (ks = A) as -> by (unfold loadable in L, LA; congruence). destruct (plain_facts _ _ _ _ _ _ P LA) as (N1 & N2 & N3).
  assert (EX : exists pt, exported_as (ks_type A) (ks_purpose A) = Some (pt, ENCRYPT)).
  { rewrite PA. rewrite PA in N2. rewrite <- N2, <- N3 in HI. clear - HI TA. inversion HI; try (exfalso; congruence); eexists; reflexivity. }
  destruct EX as (pt & EX).
  destruct (export_line gen y l d f A pt ENCRYPT Encrypter OKy EXP LA) as (h & V & EG & LVd & PV & DV & RV); try assumption; [rewrite N1; exact HN | cbn; tauto |].
  assert (FG : forall m, file f1 d m = file h d m).
  { intros m. rewrite EF. cbn [run_lines]. rewrite EG. cbn [fst]. apply lines_elsewhere; assumption. }
  assert (LG : loadable f1 d V) by (unfold loadable in *; rewrite (open_unchanged d h f1 _ _ FG), LVd; reflexivity).
  apply read_loadable in HE as [LE _]. assert (V = E) as -> by (unfold loadable in LG, LE; congruence).
  apply RV in HR as HRk. destruct HRk as (k & HRA & KP). exists PRIMARY, k. split; [exact HRA|]. split; [exact KP|]. apply (loadable_holds _ _ _ _ _ _ LA D HRA).
Qed.

Lemma later_same gen l f A n s k c xs B c' : tool_made gen l f -> exec (read_location c l) f = (f, Ok A) -> ring_of A n = Some (s, k) -> harmless l n xs ->
  exec (read_location c' l) (run_lines gen xs f) = (run_lines gen xs f, Ok B) -> exists s', ring_of B n = Some (s', k).
Proof.
  intros TM HA HR (OK & RS & NR) HB.
  destruct (lines_life gen l f c A n s k xs TM HA HR OK RS NR) as [_ _ _ _ (B' & LB & _ & _ & _ & _ & (_ & _ & HH))].
  apply read_loadable in HB as [LB' _]. assert (B' = B) as -> by (unfold loadable in LB, LB'; congruence). exact HH.
Qed.

(** ** C79 *)

(** A stream that one process writes, in any pieces, and flushes: a process that opens the set after any further command
    lines gets the data back, with [Decrypt] and by reading it as a stream, at any pace. *)
Theorem C79_streams : forall gen l f c A n k r b64 w ds w' outcomes xs c', tool_made gen l f ->
  exec (read_location c l) f = (f, Ok A) -> ring_of A n = Some (PRIMARY, k) ->
  CreateEncryptingStreamWriter A r b64 = Ok w -> wrun w (map CWrite ds ++ [CFlush]) = (w', outcomes) ->
  harmless l n xs -> In (ks_purpose A) (accepts c') ->
  let g := run_lines gen xs f in
  Forall (eq (Ok tt)) outcomes /\
  exists B, exec (read_location c' l) g = (g, Ok B) /\ Decrypt B (ew_out w') (if b64 then b64_decoder else None) = Ok (concat ds) /\ streams_back B b64 (ew_out w') (concat ds).
Proof.
  intros gen l f c A n k r b64 w ds w' outcomes xs c' TM HA HR HW HWR (OK & RS & NR) AC g.
  destruct (lines_life gen l f c A n PRIMARY k xs TM HA HR OK RS NR) as [LA HH _ _ (B & LB & _ & PB & _ & _ & HB)].
  destruct (writer_inv A k r b64 w n (proj1 HH) HR HW) as (a & kb & hb & -> & HP).
  set (e := MkEnv PyCrypto r 0).
  destruct (C51_writes_then_flush e A a kb hb b64 ds HP) as (w1 & w2 & ct & E1 & E2 & E3 & E4). cbn [e e_tape] in E1. rewrite HW in E1. apply Ok_inj in E1 as <-.
  rewrite HWR in E2. apply pair_inj in E2 as [-> ->].
  split. { apply Forall_app. split; [|repeat constructor]. apply Forall_forall. intros x Hx. apply in_map_iff in Hx as (y & <- & _). reflexivity. }
  exists B. split; [apply read_loadable; split; [exact LB | rewrite PB; exact AC]|].
  destruct (C51_output_decrypts e A a kb hb b64 ds B n HP HB) as (w1' & w2' & E1' & E2' & E3'). cbn [e e_tape] in E1'. rewrite HW in E1'. apply Ok_inj in E1' as <-.
  rewrite HWR in E2'. apply pair_inj in E2' as [<- _]. split; [exact E3'|]. rewrite E4. apply (read_back e A a kb hb _ B n b64 ct HP HB E3).
Qed.
Print Assumptions C79_streams.

(** What one process encrypted in one piece, the other can read as a stream. *)
Theorem C79_read_as_stream : forall gen l f c A n k e data (b64 : bool) ct xs c', tool_made gen l f ->
  exec (read_location c l) f = (f, Ok A) -> ring_of A n = Some (PRIMARY, k) -> ks_type A = AES -> Encrypt e A data (if b64 then b64_encoder else None) = Ok ct ->
  harmless l n xs -> In (ks_purpose A) (accepts c') ->
  let g := run_lines gen xs f in
  exists B, exec (read_location c' l) g = (g, Ok B) /\ streams_back B b64 ct data.
Proof.
  intros gen l f c A n k e data b64 ct xs c' TM HA HR T HE (OK & RS & NR) AC g.
  destruct (lines_life gen l f c A n PRIMARY k xs TM HA HR OK RS NR) as [LA HH _ _ (B & LB & _ & PB & _ & _ & HB)].
  pose proof (reached_inv A (proj1 HH)) as IA. destruct (ring_entry A n PRIMARY k IA HR) as (o & _ & HK & _).
  pose proof (inv_type A IA o k (assoc_In Nat.eqb_eq HK)) as HT. rewrite T in HT. destruct (key_type_aes k HT) as (a & ->).
  assert (RW : exists raw, Encrypt e A data None = Ok raw).
  { destruct b64; [apply Encrypt_b64 in HE as (raw & HE & _); exists raw; exact HE | exists ct; exact HE]. }
  destruct RW as (raw & HE'). destruct (encrypted_primary A a e data raw n (proj1 HH) HR HE') as (kb & hb & HP).
  exists B. split; [apply read_loadable; split; [exact LB | rewrite PB; exact AC]|]. apply (read_back e A a kb hb data B n b64 ct HP HB HE).
Qed.
Print Assumptions C79_read_as_stream.

(** The material of a session: a process that opens the set later makes of it what the first process would, and with an AES
    set that is the session, which decrypts all that the first one encrypts (with RSA sets see C40 for what the set makes of it). *)
Theorem C79_sessions : forall gen l f c A n k r e s m xs c', tool_made gen l f ->
  exec (read_location c l) f = (f, Ok A) -> ring_of A n = Some (PRIMARY, k) -> SessionEncrypter r e A = Ok (s, m) ->
  harmless l n xs -> In (ks_purpose A) (accepts c') ->
  let g := run_lines gen xs f in
  exists B, exec (read_location c' l) g = (g, Ok B) /\ (forall fuel, SessionDecrypter fuel B m = SessionDecrypter fuel A m) /\ (ks_type A = AES -> session_works B s m).
Proof.
  intros gen l f c A n k r e s m xs c' TM HA HR HS (OK & RS & NR) AC g.
  destruct (SessionEncrypter_inv _ _ _ _ _ HS) as (p & _ & _ & EM).
  destruct (C69_encrypted_data gen l f c A n k e p b64_encoder b64_decoder m xs c' TM HA HR (or_intror (conj eq_refl eq_refl)) EM OK RS NR AC) as (B & EB & EQ & ED).
  exists B. split; [exact EB|]. split; [intros fuel; unfold SessionDecrypter; rewrite EQ; reflexivity|]. intros T. apply (C40_session_roundtrip r e A B s m HS). intros x HX.
  destruct (C69_encrypted_data gen l f c A n k e x b64_encoder b64_decoder m xs c' TM HA HR (or_intror (conj eq_refl eq_refl)) HX OK RS NR AC) as (B' & EB' & _ & ED').
  rewrite EB in EB'. apply pair_inj in EB' as [_ EB']. apply Ok_inj in EB' as <-. apply ED', T.
Qed.
Print Assumptions C79_sessions.

(** Likewise for a session started with the exported public half of an RSA set: whoever opens the private set later makes of
    the material what the private set would have made of it when it was exported. *)
Theorem C79_exported_sessions : forall gen l d f A y ys f1 E n pub r e s m xs c c', tool_made gen l f ->
  exec (read_location c l) f = (f, Ok A) -> ks_purpose A = DECRYPT_AND_ENCRYPT -> ks_type A <> AES -> has_dir f d = true -> l <> d ->
  line_ok y -> exports l d y -> harmless l n ys -> Forall (leaves d) ys -> f1 = run_lines gen (y :: ys) f ->
  exec (read_location Encrypter d) f1 = (f1, Ok E) -> ring_of E n = Some (PRIMARY, pub) ->
  SessionEncrypter r e E = Ok (s, m) -> harmless l n xs -> In DECRYPT_AND_ENCRYPT (accepts c') ->
  let g := run_lines gen xs f1 in
  exists B, exec (read_location c' l) g = (g, Ok B) /\ (forall fuel, SessionDecrypter fuel B m = SessionDecrypter fuel A m) /\ (session_works A s m -> session_works B s m).
Proof.
  intros gen l d f A y ys f1 E n pub r e s m xs c c' TM HA PA TA HD NE OKy EXP (OKs & RSs & NRs) LVs EF HE HR HS (OK & RS & NR) AC g.
  destruct (SessionEncrypter_inv _ _ _ _ _ HS) as (p & _ & _ & EM). pose proof (or_intror (conj eq_refl eq_refl) : paired b64_encoder b64_decoder) as PC.
  destruct (C69_exported_encrypters gen l d f A y ys f1 E n pub e p _ _ m xs c c' TM HA PA TA HD NE OKy EXP OKs RSs NRs LVs EF HE HR PC EM OK RS NR AC) as (B & sB & k & raw & EB & RB & KP & EK & DB).
  assert (EA : Decrypt A m b64_decoder = key_Decrypt k raw).
  { pose proof EM as EM'. apply Encrypt_b64 in EM' as (raw' & HC' & ->). rewrite Decrypt_b64 in *.
    pose proof HE as HE1. apply read_loadable in HE1 as [LE _]. pose proof (made_open _ _ _ (loadable_open _ _ _ LE)) as ME.
    destruct (encrypt_shape e E p raw' (made_reached _ ME) HC') as (n2 & k2 & id & rest & HR2 & HID & HLEN & HEk & ->).
    destruct (ring_one_primary E (made_inv _ ME) n n2 pub k2 HR HR2) as [<- <-]. rewrite EK in HEk. apply Ok_inj in HEk as ->.
    destruct (read_only_ring gen l d f A y ys f1 E n pub c TM HA PA TA HD NE OKy EXP (conj OKs (conj RSs NRs)) LVs EF HE HR) as (sA & kA & RA & KA & HLA).
    destruct (later_same gen l f A n sA kA c ((y :: ys) ++ xs) B c' TM HA RA) as (sB' & RB').
    - destruct EXP as (C1 & C2 & C3). split; [apply Forall_app; split; [constructor; assumption | exact OK]|].
      split; apply Forall_app; split; try assumption; constructor; try assumption.
      + split; [rewrite C1; discriminate | intros _; rewrite C3; congruence].
      + intros (C & _). rewrite C1 in C. discriminate C.
    - rewrite run_lines_app, <- EF. exact EB.
    - rewrite RB in RB'. injection RB' as <- <-.
      apply (Decrypt_made A n k id rest HLA); [rewrite <- (public_id k pub (or_intror KP)); exact HID | exact HLEN]. }
  exists B. split; [exact EB|].
  assert (EQ : forall fuel, SessionDecrypter fuel B m = SessionDecrypter fuel A m) by (intros fuel; unfold SessionDecrypter; rewrite DB, EA; reflexivity).
  split; [exact EQ|]. intros (s' & W1 & W2). exists s'. split; [|exact W2]. intros fuel HF. rewrite EQ. apply W1, HF.
Qed.
Print Assumptions C79_exported_sessions.

(** With signed messages: the session's key set is at [l1], the signer's at [l2]; both change. *)
Theorem C79_signed_sessions : forall gen l1 l2 f c1 A n1 k1 S n2 k2 r e s m xs c1' c2', tool_made gen l1 f -> tool_made gen l2 f ->
  exec (read_location c1 l1) f = (f, Ok A) -> ring_of A n1 = Some (PRIMARY, k1) -> ks_type A = AES ->
  exec (read_location Signer l2) f = (f, Ok S) -> ring_of S n2 = Some (PRIMARY, k2) ->
  SignedSessionEncrypter r e A = Ok (s, m) -> harmless l1 n1 xs -> harmless l2 n2 xs -> In (ks_purpose A) (accepts c1') -> In (ks_purpose S) (accepts c2') ->
  let g := run_lines gen xs f in
  exists B V, exec (read_location c1' l1) g = (g, Ok B) /\ exec (read_location c2' l2) g = (g, Ok V) /\ SignedSessionDecrypter B m = Ok s /\
    forall e1 e2 p blob, (forall msg, signs_soundly e2 k2 msg) -> SignedSession_Encrypt e1 e2 s S p = Ok blob -> SignedSession_Decrypt s V blob = Ok (Some p).
Proof.
  intros gen l1 l2 f c1 A n1 k1 S n2 k2 r e s m xs c1' c2' TM1 TM2 HA HR1 T HS HR2 HE (OK & RS1 & NR1) (_ & RS2 & NR2) AC1 AC2 g.
  destruct (SignedSessionEncrypter_inv _ _ _ _ _ HE) as (j & _ & _ & EM).
  destruct (C69_encrypted_data gen l1 f c1 A n1 k1 e j b64_encoder b64_decoder m xs c1' TM1 HA HR1 (or_intror (conj eq_refl eq_refl)) EM OK RS1 NR1 AC1) as (B & EB & _ & _).
  destruct (lines_life gen l2 f Signer S n2 PRIMARY k2 xs TM2 HS HR2 OK RS2 NR2) as [_ HH _ _ (V & LV & _ & PV & _ & _ & HV)].
  exists B, V. split; [exact EB|]. split; [apply read_loadable; split; [exact LV | rewrite PV; exact AC2]|].
  destruct (C41_signed_session_roundtrip r e A B s m HE) as (E1 & E2).
  - intros x HX. destruct (C69_encrypted_data gen l1 f c1 A n1 k1 e x b64_encoder b64_decoder m xs c1' TM1 HA HR1 (or_intror (conj eq_refl eq_refl)) HX OK RS1 NR1 AC1) as (B' & EB' & _ & ED').
    rewrite EB in EB'. apply pair_inj in EB' as [_ EB']. apply Ok_inj in EB' as <-. apply ED', T.
  - split; [exact E1|]. intros e1 e2 p blob SS HB.
    apply (E2 e1 e2 S k2 V n2 k2 p blob); try assumption; [split; [exact (proj1 HH) | exists n2; exact HR2] | left; reflexivity].
Qed.
Print Assumptions C79_signed_sessions.

(** ** Cases *)

(** An AES set and an HMAC set, two keys each in the end, in one history of command lines. *)
Definition at_loc (l cmd : string) (args : list arg) (ds : list draw) : line := MkLine (bs cmd) (Flag LOCATION (bs l) :: args) ds one_env.
Definition span_disk : disk := [(bs "/c", []); (bs "/s", []); (bs "/r", []); (bs "/pub", [])].
Definition span_made : list line := [at_loc "/c" "create" [Flag PURPOSE (bs "crypt")] []; at_loc "/s" "create" [Flag PURPOSE (bs "sign")] [];
  at_loc "/c" "addkey" [Flag STATUS (bs "primary")] [zero_draw x01]; at_loc "/s" "addkey" [Flag STATUS (bs "primary")] [zero_draw x02]].
Definition span_later : list line := [at_loc "/c" "addkey" [Flag STATUS (bs "primary")] [zero_draw x03]; at_loc "/s" "addkey" [Flag STATUS (bs "primary")] [zero_draw x04];
  at_loc "/c" "demote" [Flag VERSION_FLAG (bs "1")] []; at_loc "/s" "revoke" [Flag VERSION_FLAG (bs "2")] []].
Definition span_start : disk := run_lines no_genkey span_made span_disk.

Ltac lines_ok := repeat constructor; cbn [arg_ok no_eq]; try (unfold no_eq; vm_compute; intuition discriminate); cbn; lia.
Ltac made_by f0 x0 xs :=
  exists f0, x0, (fst (exec (line_prog no_genkey x0) f0)), xs;
  split; [reflexivity|]; split; [reflexivity|]; split; [lines_ok|]; split; [vm_compute; reflexivity|]; split; [lines_ok|];
  split; [repeat constructor; discriminate|]; split; [repeat constructor; intros [_ C]; apply C; reflexivity|].

Lemma span_c : tool_made no_genkey (bs "/c") span_start.
Proof. made_by span_disk (at_loc "/c" "create" [Flag PURPOSE (bs "crypt")] []) (tl span_made). unfold span_start, span_made; cbn [tl run_lines]; reflexivity. Qed.
Lemma span_s : tool_made no_genkey (bs "/s") span_start.
Proof.
  made_by (fst (exec (line_prog no_genkey (hd (at_loc "/c" "create" [] []) span_made)) span_disk)) (at_loc "/s" "create" [Flag PURPOSE (bs "sign")] []) (tl (tl span_made)).
  unfold span_start, span_made; cbn [hd tl run_lines]; reflexivity.
Qed.

Lemma span_harmless : harmless (bs "/c") 1 span_later /\ harmless (bs "/s") 1 span_later.
Proof.
  assert (OK : Forall line_ok span_later) by (unfold span_later; lines_ok).
  split; (split; [exact OK|]); (split; [repeat constructor; discriminate|]); repeat constructor; intros (C1 & C2 & v & C3 & C4); try discriminate C1; try discriminate C2.
  vm_compute in C3. apply Some_inj in C3 as <-. apply C50_integers in C4. vm_compute in C4. discriminate C4.
Qed.

Lemma span_opens : exists A S a h kb hb, exec (read_location Crypter (bs "/c")) span_start = (span_start, Ok A) /\ ring_of A 1 = Some (PRIMARY, KAes a) /\ ks_type A = AES /\
  ks_purpose A = DECRYPT_AND_ENCRYPT /\ aes_bytes a = Ok kb /\ hmac_bytes (ak_hmac a) = Ok hb /\ len kb = 16 /\
  exec (read_location Signer (bs "/s")) span_start = (span_start, Ok S) /\ ring_of S 1 = Some (PRIMARY, KHmac h) /\ ks_purpose S = SIGN_AND_VERIFY.
Proof.
  do 6 eexists. split; [vm_compute; reflexivity|]. split; [vm_compute; reflexivity|]. split; [reflexivity|]. split; [reflexivity|]. split; [vm_compute; reflexivity|].
  split; [vm_compute; reflexivity|]. split; [vm_compute; reflexivity|]. split; [vm_compute; reflexivity|]. split; vm_compute; reflexivity.
Qed.

(** The hypotheses of [C79_streams], [C79_read_as_stream], [C79_sessions] and [C79_signed_sessions]. *)
Example C79_case : tool_made no_genkey (bs "/c") span_start /\ tool_made no_genkey (bs "/s") span_start /\
  harmless (bs "/c") 1 span_later /\ harmless (bs "/s") 1 span_later /\
  exists A S a h, exec (read_location Crypter (bs "/c")) span_start = (span_start, Ok A) /\ ring_of A 1 = Some (PRIMARY, KAes a) /\ ks_type A = AES /\
    exec (read_location Signer (bs "/s")) span_start = (span_start, Ok S) /\ ring_of S 1 = Some (PRIMARY, KHmac h) /\
    In (ks_purpose A) (accepts Crypter) /\ In (ks_purpose S) (accepts Verifier) /\
    (forall b64, exists w, CreateEncryptingStreamWriter A (fun _ => x05) b64 = Ok w) /\ (exists ct, Encrypt (one_env 0) A (bs "hello") b64_encoder = Ok ct) /\
    (exists s m, SessionEncrypter (fun _ => x06) (one_env 0) A = Ok (s, m)) /\
    exists s m blob, SignedSessionEncrypter (fun _ => x06) (one_env 0) A = Ok (s, m) /\ (forall msg, signs_soundly (one_env 2) (KHmac h) msg) /\
      SignedSession_Encrypt (one_env 1) (one_env 2) s S (bs "hello") = Ok blob.
Proof.
  destruct span_harmless as [H1 H2]. split; [exact span_c|]. split; [exact span_s|]. split; [exact H1|]. split; [exact H2|].
  destruct span_opens as (A & S & a & h & kb & hb & E1 & R1 & T1 & P1 & K1 & K2 & K3 & E2 & R2 & P2). exists A, S, a, h.
  split; [exact E1|]. split; [exact R1|]. split; [exact T1|]. split; [exact E2|]. split; [exact R2|]. rewrite P1, P2. split; [cbn; tauto|]. split; [cbn; tauto|].
  destruct (lines_life no_genkey _ _ _ _ _ _ _ [] span_c E1 R1 (Forall_nil _) (Forall_nil _) (Forall_nil _)) as [_ HA _ _ _].
  destruct (lines_life no_genkey _ _ _ _ _ _ _ [] span_s E2 R2 (Forall_nil _) (Forall_nil _) (Forall_nil _)) as [_ HS _ _ _].
  assert (HM : aes_material a kb hb) by (split; assumption). assert (HZ : aes_size_ok kb) by (left; exact K3).
  assert (SA : signer_of A (KAes a)) by (split; [exact (proj1 HA) | exists 1; exact R1]). assert (SS : signer_of S (KHmac h)) by (split; [exact (proj1 HS) | exists 1; exact R2]).
  assert (HP : aes_primary A a kb hb) by (split; [exact SA | split; assumption]).
  split. { clear - HP. intros b64. destruct (stream_writer (MkEnv PyCrypto (fun _ => x05) 0) A a kb hb b64 HP) as (hdr & w & _ & EW & _). exists w. exact EW. }
  split. { destruct (C51_writes_then_flush (one_env 0) A a kb hb true [bs "hello"] HP) as (_ & _ & ct & _ & _ & EE & _). exists ct. exact EE. }
  split. { destruct (C40_aes (fun _ => x06) (one_env 0) A A 1 1 a kb hb (proj1 HA) R1 HM HZ HA) as (s & m & ES & _). exists s, m. exact ES. }
  assert (HB : exists b, hmac_bytes h = Ok b).
  { destruct (signer_primary _ _ SS) as (_ & id & HH & _). cbn [key_hash_id] in HH. unfold hmac_hash_id in HH. apply bind_Ok in HH as (b & Hb & _). exists b. exact Hb. }
  destruct HB as (b & HB).
  destruct (C41_aes_hmac (fun _ => x06) (one_env 0) A A 1 1 a kb hb S S 1 h b (proj1 HA) R1 HM HZ HA SS HB HS) as (s & m & ES & _ & RT).
  destruct (RT (one_env 1) (one_env 2) (bs "hello")) as (blob & EB & _); [vm_compute; reflexivity|].
  exists s, m, blob. split; [exact ES|]. split; [intros msg; exact Logic.I | exact EB].
Qed.

(** A 1024-bit RSA set, exported to /pub: the hypotheses of [C79_exported_sessions], with a session that the private set opens. *)
Definition rsa_create : line := at_loc "/r" "create" [Flag PURPOSE (bs "crypt"); Flag ASYMMETRIC (bs "rsa")] [].
Definition rsa_made : list line := [rsa_create;
  at_loc "/r" "addkey" [Flag STATUS (bs "primary"); Flag SIZE (bs "1024")] [MkDraw (fun _ => x00) nums1024 (MkDsaNums (MkDsaPubNums 0 0 0 0) 0)]].
Definition rsa_export : line := at_loc "/r" "pubkey" [Flag DESTINATION (bs "/pub")] [].
Definition rsa_rotate : list line := [at_loc "/r" "addkey" [Flag STATUS (bs "primary"); Flag SIZE (bs "512")] [rsa_draw]; at_loc "/r" "demote" [Flag VERSION_FLAG (bs "1")] []].
Definition rsa_start : disk := run_lines no_genkey rsa_made span_disk.
Definition rsa_shared : disk := run_lines no_genkey [rsa_export] rsa_start.

Lemma nums1024_nonneg : rsa_nonneg nums1024.
Proof. unfold rsa_nonneg. vm_compute. intuition discriminate. Qed.
Lemma rsa_draw_nonneg : rsa_nonneg demo_rsa_nums.
Proof. unfold rsa_nonneg. vm_compute. intuition discriminate. Qed.
Lemma rsa_lines_ok : Forall line_ok rsa_made /\ line_ok rsa_export /\ Forall line_ok rsa_rotate.
Proof.
  pose proof nums1024_nonneg. pose proof rsa_draw_nonneg.
  split; [|split]; repeat constructor; cbn [arg_ok no_eq]; try (unfold no_eq; vm_compute; intuition discriminate); cbn; lia.
Qed.
Lemma rsa_tool_made : tool_made no_genkey (bs "/r") rsa_start.
Proof.
  destruct rsa_lines_ok as (OK & _). exists span_disk, rsa_create, (fst (exec (line_prog no_genkey rsa_create) span_disk)), (tl rsa_made).
  split; [reflexivity|]. split; [reflexivity|]. split; [apply (Forall_inv OK)|]. split; [vm_compute; reflexivity|]. split; [apply (Forall_inv_tail OK)|].
  split; [repeat constructor; discriminate|]. split; [repeat constructor; intros [_ C]; apply C; reflexivity|]. unfold rsa_start, rsa_made; cbn [tl run_lines]; reflexivity.
Qed.
Lemma rsa_opens : exists A, exec (read_location Crypter (bs "/r")) rsa_start = (rsa_start, Ok A) /\ ring_of A 1 = Some (PRIMARY, KRsaPriv rsa1024) /\ ks_type A = RSA_PRIV /\ ks_purpose A = DECRYPT_AND_ENCRYPT.
Proof. eexists. split; [vm_compute; reflexivity|]. split; [vm_compute; reflexivity|]. split; reflexivity. Qed.
Lemma rsa_pub_opens : exists E, exec (read_location Encrypter (bs "/pub")) rsa_shared = (rsa_shared, Ok E) /\ ring_of E 1 = Some (PRIMARY, KRsaPub (rs_pub rsa1024)).
Proof. eexists. split; [vm_compute; reflexivity|]. vm_compute; reflexivity. Qed.

Lemma rsa_harmless : harmless (bs "/r") 1 rsa_rotate.
Proof.
  split; [apply rsa_lines_ok|]. split; [repeat constructor; discriminate|]. repeat constructor; intros (C & _); discriminate C.
Qed.
Lemma rsa_no_zeros : forall p em rest, packed_key (MkSession (fresh_key (repeat x06 16) (repeat x06 32)) None) = Ok p ->
  oaep_encode 128 p (RandBytes (e_tape (one_env 0)) 20) = Ok em -> em <> repeat x00 23 ++ rest.
Proof. intros p em rest EP EO. vm_compute in EP. apply Ok_inj in EP as <-. vm_compute in EO. apply Ok_inj in EO as <-. discriminate. Qed.

Example C79_exported_case : tool_made no_genkey (bs "/r") rsa_start /\ line_ok rsa_export /\ exports (bs "/r") (bs "/pub") rsa_export /\ has_dir rsa_start (bs "/pub") = true /\
  harmless (bs "/r") 1 rsa_rotate /\
  exists A E s m, exec (read_location Crypter (bs "/r")) rsa_start = (rsa_start, Ok A) /\ ks_purpose A = DECRYPT_AND_ENCRYPT /\ ks_type A <> AES /\
    exec (read_location Encrypter (bs "/pub")) rsa_shared = (rsa_shared, Ok E) /\ ring_of E 1 = Some (PRIMARY, KRsaPub (rs_pub rsa1024)) /\
    SessionEncrypter (fun _ => x06) (one_env 0) E = Ok (s, m) /\ session_works A s m.
Proof.
  split; [exact rsa_tool_made|]. split; [apply rsa_lines_ok|]. split; [repeat split|]. split; [vm_compute; reflexivity|]. split; [exact rsa_harmless|].
  destruct rsa_opens as (A & E1 & R1 & T1 & P1). destruct rsa_pub_opens as (E & E2 & R2).
  destruct (lines_life no_genkey _ _ _ _ _ _ _ [] rsa_tool_made E1 R1 (Forall_nil _) (Forall_nil _) (Forall_nil _)) as [_ HA _ _ _].
  assert (EW : encrypts_with E rsa1024).
  { right. split; [|exists 1; exact R2]. apply read_loadable in E2 as [L _]. apply made_reached, (made_open _ _ _ (loadable_open _ _ _ L)). }
  destruct (C40_rsa_partial (fun _ => x06) (one_env 0) E A 1 rsa1024 1024 EW HA) as (s & m & p & em & ES & EP & EO & SW); [right; right; left; reflexivity | discriminate | exact rsa1024_ok |].
  exists A, E, s, m. split; [exact E1|]. split; [exact P1|]. split; [rewrite T1; discriminate|]. split; [exact E2|]. split; [exact R2|]. split; [exact ES|].
  apply SW. intros rest. destruct (SessionEncrypter_inv _ _ _ _ _ ES) as (p' & EN & _). 
  assert (EK : se_key s = fresh_key (repeat x06 16) (repeat x06 32)) by (vm_compute in EN; apply Ok_inj in EN as <-; vm_compute; reflexivity).
  apply (rsa_no_zeros p em rest); [|exact EO]. unfold packed_key in *. cbn [se_key]. rewrite <- EK. exact EP.
Qed.

(** Beside [C40_rsa_partial]: two sets with an RSA key of 1024 bits. *)
Example C40_rsa_case : exists E A, encrypts_with E rsa1024 /\ holds A 1 (KRsaPriv rsa1024) /\ In 1024 rsa_sizes /\ rsa_key_ok 1024 rsa1024.
Proof.
  destruct rsa_opens as (A & E1 & R1 & _). destruct rsa_pub_opens as (E & E2 & R2). exists E, A.
  split. { right. split; [|exists 1; exact R2]. apply read_loadable in E2 as [L _]. apply made_reached, (made_open _ _ _ (loadable_open _ _ _ L)). }
  split; [|split; [right; right; left; reflexivity | exact rsa1024_ok]].
  destruct (lines_life no_genkey _ _ _ _ _ _ _ [] rsa_tool_made E1 R1 (Forall_nil _) (Forall_nil _) (Forall_nil _)) as [_ HA _ _ _]. exact HA.
Qed.
