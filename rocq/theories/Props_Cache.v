(** * Props_Cache: what the memory of sessions does and does not change (C82). *)
From Coq Require Import Strings.String.
From Coq Require Import List ZArith NArith Bool Lia ZifyBool ZifyNat ZifyN.
From Coq.Init Require Import Byte.
From Verif Require Import PyBase PyFacts SymKeys Keys KeyData Keyczar KeyczarFacts Session Cache Props_Sym Props_Session.
Import ListNotations.
Local Open Scope Z_scope.
Ltac Zify.zify_post_hook ::= idtac.

(** ** Specification *)

(** The pickled form tells sessions apart that have different keys or nonces. *)
Definition tells_apart {A} (pickle : A -> str) : Prop := forall a b, pickle a = pickle b -> a = b.

(** What a call returns by itself, without any memory. *)
Definition plain_call (c : session_call) : res (option str) :=
  match c with
  | CallEncrypt e s p encoder => let* x := Session_Encrypt e s p encoder in Ok (Some x)
  | CallDecrypt s x decoder => let* p := Session_Decrypt s x decoder in Ok (Some p)
  | CallSignedEncrypt e e' s signer p => let* x := SignedSession_Encrypt e e' s signer p in Ok (Some x)
  | CallSignedDecrypt s verifier x => SignedSession_Decrypt s verifier x
  end.

(** The session a call is made on. *)
Definition session_of (c : session_call) : session :=
  match c with CallEncrypt _ s _ _ => s | CallDecrypt s _ _ => s | CallSignedEncrypt _ _ s _ _ => s | CallSignedDecrypt s _ _ => s end.

(** Memories a process can have: it starts with an empty one. *)
Definition memory_of (pickle : session -> str) (cs : list session_call) : memory keyset := fst (cached_calls pickle [] cs).
Definition results_of (pickle : session -> str) (cs : list session_call) : list (res (option str)) := snd (cached_calls pickle [] cs).

(** ** Proofs *)

(** Every entry belongs to some argument and is what the function gives for it. *)
Definition faithful {A B} (pickle : A -> str) (func : A -> res B) (mem : memory B) : Prop :=
  NoDup (map fst mem) /\ forall k b, In (k, b) mem -> exists a, k = pickle a /\ func a = Ok b.

Lemma faithful_nil {A B} (pickle : A -> str) (func : A -> res B) : faithful pickle func [].
Proof. split; [constructor | intros k b []]. Qed.
Lemma memo_faithful {A B} (pickle : A -> str) (func : A -> res B) mem a : tells_apart pickle -> faithful pickle func mem ->
  faithful pickle func (fst (memo pickle func mem a)) /\ snd (memo pickle func mem a) = func a.
Proof.
  intros T [ND F]. unfold memo. destruct (assoc str_eqb mem (pickle a)) as [b|] eqn:E.
  - cbn [fst snd]. split; [split; assumption|]. apply (assoc_In str_eqb_eq) in E. destruct (F _ _ E) as (a' & EA & EB). apply T in EA as <-. symmetry. exact EB.
  - destruct (func a) as [b|x] eqn:EF; cbn [fst snd]; (split; [|reflexivity]); [|split; assumption]. split.
    + rewrite map_app. cbn [map fst]. apply NoDup_rev in ND. rewrite <- rev_involutive. apply NoDup_rev. rewrite rev_app_distr. cbn [rev app]. constructor; [|exact ND]. rewrite <- in_rev. apply (assoc_None str_eqb_eq). exact E.
    + intros k b' HI. apply in_app_or in HI as [HI|[HI|[]]]; [exact (F _ _ HI)|]. apply pair_inj in HI as [<- <-]. exists a. split; [reflexivity | exact EF].
Qed.
Lemma memo_grows {A B} (pickle : A -> str) (func : A -> res B) mem a : exists l, fst (memo pickle func mem a) = mem ++ l.
Proof.
  unfold memo. destruct (assoc str_eqb mem (pickle a)) as [b|]; [exists []; cbn [fst]; rewrite app_nil_r; reflexivity|]. destruct (func a) as [b|x]; cbn [fst]; [eexists; reflexivity | exists []; rewrite app_nil_r; reflexivity].
Qed.

Lemma bind_assoc {A B C} (x : res A) (f : A -> res B) (g : B -> res C) : bind (bind x f) g = bind x (fun a => bind (f a) g).
Proof. destruct x; reflexivity. Qed.
Lemma cached_call_spec pickle mem c : tells_apart pickle -> faithful pickle session_crypter mem ->
  faithful pickle session_crypter (fst (cached_call pickle mem c)) /\ snd (cached_call pickle mem c) = plain_call c.
Proof.
  intros T F. destruct c as [e s p enc|s x dec|e e' s sg p|s vf x]; cbn [cached_call plain_call]; unfold cached_crypter.
  - destruct (memo_faithful pickle session_crypter mem s T F) as [F' E]. destruct (memo _ _ mem s) as [mem' k]. cbn [fst snd] in *. subst k. split; [exact F'|]. unfold Session_Encrypt. rewrite bind_assoc. reflexivity.
  - destruct (memo_faithful pickle session_crypter mem s T F) as [F' E]. destruct (memo _ _ mem s) as [mem' k]. cbn [fst snd] in *. subst k. split; [exact F'|]. unfold Session_Decrypt. rewrite bind_assoc. reflexivity.
  - destruct (memo_faithful pickle session_crypter mem s T F) as [F' E]. destruct (memo _ _ mem s) as [mem' k]. cbn [fst snd] in *. subst k. split; [exact F'|]. unfold SignedSession_Encrypt. rewrite bind_assoc. destruct (session_crypter s); [cbn [bind]; rewrite bind_assoc; reflexivity | reflexivity].
  - unfold SignedSession_Decrypt. destruct (AttachedVerify vf x (se_nonce s) b64_decoder) as [[[|b ct]|]|ex]; cbn [bind]; try (split; [exact F | reflexivity]).
    destruct (memo_faithful pickle session_crypter mem s T F) as [F' E]. destruct (memo _ _ mem s) as [mem' k]. cbn [fst snd] in *. subst k. split; [exact F' | reflexivity].
Qed.
Lemma cached_calls_spec pickle cs : forall mem, tells_apart pickle -> faithful pickle session_crypter mem ->
  faithful pickle session_crypter (fst (cached_calls pickle mem cs)) /\ snd (cached_calls pickle mem cs) = map plain_call cs.
Proof.
  induction cs as [|c cs IH]; intros mem T F; [split; [exact F | reflexivity]|]. cbn [cached_calls map]. destruct (cached_call_spec pickle mem c T F) as [F1 E1]. destruct (cached_call pickle mem c) as [mem1 r]. cbn [fst snd] in *.
  destruct (IH mem1 T F1) as [F2 E2]. destruct (cached_calls pickle mem1 cs) as [mem2 rs]. cbn [fst snd] in *. subst. split; [exact F2 | reflexivity].
Qed.
Lemma call_grows pickle mem c : exists l, fst (cached_call pickle mem c) = mem ++ l.
Proof.
  destruct c as [e s p enc|s x dec|e e' s sg p|s vf x]; cbn [cached_call]; unfold cached_crypter.
  4: destruct (AttachedVerify vf x (se_nonce s) b64_decoder) as [[[|b ct]|]|ex]; try (exists []; cbn [fst]; rewrite app_nil_r; reflexivity).
  all: destruct (memo_grows pickle session_crypter mem s) as (l & E); destruct (memo _ _ mem s) as [mem' k]; exists l; exact E.
Qed.
Lemma calls_grow pickle cs : forall mem, exists l, fst (cached_calls pickle mem cs) = mem ++ l.
Proof.
  induction cs as [|c cs IH]; intros mem; [exists []; cbn; rewrite app_nil_r; reflexivity|]. cbn [cached_calls]. destruct (call_grows pickle mem c) as (l & E). destruct (cached_call pickle mem c) as [mem1 r]. cbn [fst] in E.
  destruct (IH mem1) as (l' & E'). destruct (cached_calls pickle mem1 cs) as [mem2 rs]. cbn [fst] in *. exists (l ++ l'). subst. rewrite app_assoc. reflexivity.
Qed.
Lemma calls_app pickle cs cs' : forall mem, cached_calls pickle mem (cs ++ cs') =
  (fst (cached_calls pickle (fst (cached_calls pickle mem cs)) cs'), snd (cached_calls pickle mem cs) ++ snd (cached_calls pickle (fst (cached_calls pickle mem cs)) cs')).
Proof.
  induction cs as [|c cs IH]; intros mem; cbn [app cached_calls]; [cbn [fst snd app]; destruct (cached_calls pickle mem cs'); reflexivity|].
  destruct (cached_call pickle mem c) as [mem1 r]. rewrite IH. destruct (cached_calls pickle mem1 cs) as [mem2 rs]. reflexivity.
Qed.

(** ** C82 *)

(** The decorator, for every function: whatever arguments it was called with before, a call gives
    what the function gives. *)
Fixpoint memo_calls {A B} (pickle : A -> str) (func : A -> res B) (mem : memory B) (l : list A) : list (res B) :=
  match l with
  | [] => []
  | a :: l' => snd (memo pickle func mem a) :: memo_calls pickle func (fst (memo pickle func mem a)) l'
  end.
Theorem C82_memoize : forall (A B : Type) (pickle : A -> str) (func : A -> res B) l, tells_apart pickle -> memo_calls pickle func [] l = map func l.
Proof.
  intros A B pickle func l T. generalize (faithful_nil pickle func). generalize (@nil (str * B)) as mem. induction l as [|a l IH]; intros mem F; [reflexivity|]. cbn [memo_calls map].
  destruct (memo_faithful pickle func mem a T F) as [F' E]. rewrite E, (IH _ F'). reflexivity.
Qed.
Print Assumptions C82_memoize.
(** Once it has given a value for an argument it is not evaluated for this argument any more: any
    other function in its place would do. *)
Fixpoint memo_after {A B} (pickle : A -> str) (func : A -> res B) (mem : memory B) (l : list A) : memory B :=
  match l with [] => mem | a :: l' => memo_after pickle func (fst (memo pickle func mem a)) l' end.
Lemma memo_hit {A B} (pickle : A -> str) (func : A -> res B) mem a b : snd (memo pickle func mem a) = Ok b -> assoc str_eqb (fst (memo pickle func mem a)) (pickle a) = Some b.
Proof.
  unfold memo. destruct (assoc str_eqb mem (pickle a)) as [b0|] eqn:E; cbn [fst snd]; [intros H; apply Ok_inj in H as <-; exact E|]. destruct (func a) as [b0|]; cbn [fst snd]; intros H; [|discriminate H]. apply Ok_inj in H as ->.
  rewrite assoc_app, E. cbn [assoc]. rewrite str_eqb_refl. reflexivity.
Qed.
Lemma memo_stays {A B} (pickle : A -> str) (func : A -> res B) k b l : forall mem, assoc str_eqb mem k = Some b -> assoc str_eqb (memo_after pickle func mem l) k = Some b.
Proof.
  induction l as [|a l IH]; intros mem H; cbn [memo_after]; [exact H|]. apply IH. destruct (memo_grows pickle func mem a) as (l' & ->). rewrite assoc_app, H. reflexivity.
Qed.
Theorem C82_computed_once : forall (A B : Type) (pickle : A -> str) (func other : A -> res B) mem a b later, snd (memo pickle func mem a) = Ok b ->
  let mem' := memo_after pickle func (fst (memo pickle func mem a)) later in memo pickle other mem' a = (mem', Ok b).
Proof.
  intros A B pickle func other mem a b later H mem'. assert (E : assoc str_eqb mem' (pickle a) = Some b) by (apply memo_stays, memo_hit, H). unfold memo. rewrite E. reflexivity.
Qed.
Print Assumptions C82_computed_once.

(** Whatever calls were made before on whatever sessions, each call returns or raises just what it
    does in a process that makes this call alone. *)
Theorem C82_transparent : forall pickle cs, tells_apart pickle -> results_of pickle cs = map plain_call cs.
Proof. intros pickle cs T. exact (proj2 (cached_calls_spec pickle cs [] T (faithful_nil pickle session_crypter))). Qed.
Print Assumptions C82_transparent.

(** That the pickled forms differ is needed: where two sessions with different keys have the same
    one, what is encrypted with the second is encrypted with the key of the first. *)
Theorem C82_pickles_must_differ : forall pickle s s' ks e p enc e' p', pickle s = pickle s' -> session_crypter s = Ok ks ->
  results_of pickle [CallEncrypt e s p enc; CallEncrypt e' s' p' enc] =
  [plain_call (CallEncrypt e s p enc); plain_call (CallEncrypt e' s p' enc)].
Proof.
  intros pickle s s' ks e p enc e' p' EP E. unfold results_of. cbn [cached_calls cached_call]. unfold cached_crypter, memo. cbn [assoc]. rewrite E. cbn [app assoc]. rewrite <- EP, str_eqb_refl. cbn [snd plain_call].
  unfold Session_Encrypt. rewrite E. reflexivity.
Qed.
Print Assumptions C82_pickles_must_differ.

(** A key set is made for a session at its first use only: at the end there is one entry for each
    session that was used, and no other. *)
Definition used (c : session_call) : Prop :=
  match c with
  | CallSignedDecrypt s verifier x => exists b ct, AttachedVerify verifier x (se_nonce s) b64_decoder = Ok (Some (b :: ct))
  | _ => True
  end.
Lemma memo_entries pickle mem s ks : tells_apart pickle -> faithful pickle session_crypter mem -> session_crypter s = Ok ks -> In (pickle s, ks) (fst (memo pickle session_crypter mem s)).
Proof.
  intros T F E. destruct (memo_faithful pickle session_crypter mem s T F) as [_ H]. unfold memo in *. destruct (assoc str_eqb mem (pickle s)) as [b|] eqn:EA; cbn [fst snd] in *.
  - rewrite E in H. apply Ok_inj in H as ->. apply (assoc_In str_eqb_eq), EA.
  - rewrite E. cbn [fst]. apply in_or_app. right. left. reflexivity.
Qed.
Lemma memo_new pickle mem s k b : In (k, b) (fst (memo pickle session_crypter mem s)) -> In (k, b) mem \/ k = pickle s.
Proof.
  unfold memo. destruct (assoc str_eqb mem (pickle s)); cbn [fst]; [left; assumption|]. destruct (session_crypter s); cbn [fst]; [|left; assumption]. intros H. apply in_app_or in H as [H|[H|[]]]; [left; exact H|]. apply pair_inj in H as [<- _]. right. reflexivity.
Qed.
Lemma call_entry pickle mem c ks : tells_apart pickle -> faithful pickle session_crypter mem -> used c -> session_crypter (session_of c) = Ok ks -> In (pickle (session_of c), ks) (fst (cached_call pickle mem c)).
Proof.
  intros T F U E. destruct c as [e s p enc|s x dec|e e' s sg p|s vf x]; cbn [cached_call session_of used] in *; unfold cached_crypter.
  4: destruct U as (b & ct & ->).
  all: pose proof (memo_entries pickle mem s ks T F E) as H; destruct (memo _ _ mem s) as [mem' k]; exact H.
Qed.
Lemma call_new pickle mem c k b : In (k, b) (fst (cached_call pickle mem c)) -> In (k, b) mem \/ k = pickle (session_of c) /\ used c.
Proof.
  destruct c as [e s p enc|s x dec|e e' s sg p|s vf x]; cbn [cached_call session_of used]; unfold cached_crypter.
  4: destruct (AttachedVerify vf x (se_nonce s) b64_decoder) as [[[|y ct]|]|ex]; try (cbn [fst]; intros H; left; exact H).
  all: intros H; pose proof (memo_new pickle mem s k b) as M; destruct (memo _ _ mem s) as [mem' r]; cbn [fst] in *; destruct (M H) as [M'|M']; [left; exact M' | right; split; [exact M'|]].
  1-3: exact Logic.I.
  exists y, ct. reflexivity.
Qed.

Theorem C82_one_entry_each : forall pickle cs, tells_apart pickle ->
  NoDup (map fst (memory_of pickle cs)) /\
  forall key ks, In (key, ks) (memory_of pickle cs) <-> exists c, In c cs /\ used c /\ key = pickle (session_of c) /\ session_crypter (session_of c) = Ok ks.
Proof.
  intros pickle cs T. split; [exact (proj1 (proj1 (cached_calls_spec pickle cs [] T (faithful_nil _ _))))|]. intros key ks.
  assert (F : faithful pickle session_crypter (memory_of pickle cs)) by exact (proj1 (cached_calls_spec pickle cs [] T (faithful_nil _ _))).
  assert (G : forall cs mem, (exists c, In c cs /\ used c /\ key = pickle (session_of c) /\ session_crypter (session_of c) = Ok ks) -> faithful pickle session_crypter mem -> In (key, ks) (fst (cached_calls pickle mem cs))).
  { clear cs F. induction cs as [|c cs IH]; intros mem (c0 & HI & HU & EK & EC) F; [destruct HI|]. cbn [cached_calls]. destruct (cached_call_spec pickle mem c T F) as [F1 _]. destruct HI as [<-|HI].
    - pose proof (call_entry pickle mem c ks T F HU EC) as H. destruct (cached_call pickle mem c) as [mem1 r]. cbn [fst] in *. destruct (calls_grow pickle cs mem1) as (l & E). destruct (cached_calls pickle mem1 cs) as [mem2 rs]. cbn [fst] in *.
      rewrite E, EK. apply in_or_app. left. exact H.
    - destruct (cached_call pickle mem c) as [mem1 r]. cbn [fst] in *. assert (H : In (key, ks) (fst (cached_calls pickle mem1 cs))) by (apply IH; [exists c0; repeat split; assumption | exact F1]). destruct (cached_calls pickle mem1 cs) as [mem2 rs]. exact H. }
  assert (N : forall cs mem b, In (key, b) (fst (cached_calls pickle mem cs)) -> In (key, b) mem \/ exists c, In c cs /\ used c /\ key = pickle (session_of c)).
  { clear. induction cs as [|c cs IH]; intros mem b H; cbn [cached_calls] in H; [left; exact H|]. pose proof (call_new pickle mem c key b) as C. destruct (cached_call pickle mem c) as [mem1 r]. cbn [fst] in C.
    specialize (IH mem1 b). destruct (cached_calls pickle mem1 cs) as [mem2 rs]. cbn [fst] in *. destruct (IH H) as [H1|(c0 & HI & HU & HK)].
    - destruct (C H1) as [H2|[HK HU]]; [left; exact H2 | right; exists c; split; [left; reflexivity | split; assumption]].
    - right. exists c0. split; [right; exact HI | split; assumption]. }
  split.
  - intros H. destruct (N cs [] ks H) as [[]|(c & HI & HU & HK)]. exists c. split; [exact HI|]. split; [exact HU|]. split; [exact HK|]. destruct F as [_ F]. destruct (F _ _ H) as (a & EA & EB). rewrite HK in EA. apply T in EA as ->. exact EB.
  - intros H. apply G; [exact H | apply faithful_nil].
Qed.
Print Assumptions C82_one_entry_each.

(** So the key of a session does not leave the memory of the process when the session is dropped:
    whatever is called after its last use, its key set is still held. *)
Theorem C82_keys_are_kept_refuted : forall pickle before c after ks, tells_apart pickle -> used c -> session_crypter (session_of c) = Ok ks ->
  In (pickle (session_of c), ks) (memory_of pickle (before ++ c :: after)).
Proof.
  intros pickle before c after ks T U E. apply (proj2 (C82_one_entry_each pickle (before ++ c :: after) T)). exists c. split; [apply in_or_app; right; left; reflexivity|]. repeat split; assumption.
Qed.
Print Assumptions C82_keys_are_kept_refuted.

(** Nor is there a bound: the memory has as many entries as different sessions were used. *)
Theorem C82_grows_refuted : forall pickle ss, tells_apart pickle -> NoDup ss -> (forall s, In s ss -> exists ks, session_crypter s = Ok ks) ->
  forall e p enc, List.length (memory_of pickle (map (fun s => CallEncrypt e s p enc) ss)) = List.length ss.
Proof.
  intros pickle ss T ND HS e p enc. set (cs := map _ ss). destruct (C82_one_entry_each pickle cs T) as [N1 HE].
  assert (L : forall a b : list str, NoDup a -> NoDup b -> (forall x, In x a <-> In x b) -> List.length a = List.length b).
  { intros a b Na Nb H. apply Nat.le_antisymm; apply NoDup_incl_length; try assumption; intros x Hx; apply H; exact Hx. }
  rewrite <- (map_length fst (memory_of pickle cs)), <- (map_length pickle ss). apply L; [exact N1| |].
  - clear -T ND. induction ND as [|s ss N _ IH]; [constructor|]. cbn [map]. constructor; [|exact IH]. intros H. apply in_map_iff in H as (s' & E & H). apply T in E as ->. contradiction.
  - intros x. split.
    + intros H. apply in_map_iff in H as ([k ks] & <- & H). apply HE in H as (c & HI & _ & HK & _). apply in_map_iff in HI as (s & <- & HI). cbn [fst session_of] in *. rewrite HK. apply in_map, HI.
    + intros H. apply in_map_iff in H as (s & <- & H). destruct (HS s H) as (ks & EK). apply in_map_iff. exists (pickle s, ks). split; [reflexivity|]. apply HE. exists (CallEncrypt e s p enc). split; [apply in_map_iff; exists s; split; [reflexivity | exact H]|].
      repeat split. exact EK.
Qed.
Print Assumptions C82_grows_refuted.

(** *** A pickled form that tells all sessions apart, and two sessions *)
Definition enc_nat (n : nat) : str := repeat x01 n ++ [x00].
Definition enc_Z (z : Z) : str := enc_nat (Z.to_nat z) ++ enc_nat (Z.to_nat (- z)).
Definition enc_text (t : text) : str := enc_nat (List.length t) ++ concat (map (fun c => enc_nat (N.to_nat c)) t).
Definition pickled (s : session) : str :=
  let k := se_key s in
  enc_text (ak_string k) ++ enc_Z (ak_size k) ++ enc_text (hk_string (ak_hmac k)) ++ enc_Z (hk_size (ak_hmac k)) ++ match se_nonce s with None => [] | Some n => x00 :: n end.
Lemma enc_nat_inj n : forall m a b, enc_nat n ++ a = enc_nat m ++ b -> n = m /\ a = b.
Proof.
  unfold enc_nat. induction n as [|n IH]; intros [|m] a b H; cbn [repeat app] in H; try discriminate H; injection H as H; [split; [reflexivity | exact H]|]. destruct (IH m a b H) as [-> ->]. split; reflexivity.
Qed.
Lemma enc_Z_inj x y a b : enc_Z x ++ a = enc_Z y ++ b -> x = y /\ a = b.
Proof. unfold enc_Z. rewrite <- !app_assoc. intros H. apply enc_nat_inj in H as [H1 H]. apply enc_nat_inj in H as [H2 H]. split; [lia | exact H]. Qed.
Lemma enc_text_inj t u a b : enc_text t ++ a = enc_text u ++ b -> t = u /\ a = b.
Proof.
  unfold enc_text. rewrite <- !app_assoc. intros H. apply enc_nat_inj in H as [L H]. revert u L H. induction t as [|c t IH]; intros [|d u] L H; try discriminate L; [split; [reflexivity | exact H]|].
  cbn [map concat] in H. rewrite <- !app_assoc in H. apply enc_nat_inj in H as [H1 H]. injection L as L. destruct (IH u L H) as [-> ->]. split; [f_equal; lia | reflexivity].
Qed.
Lemma pickled_apart : tells_apart pickled.
Proof.
  intros [[s [hs hz] z] n] [[s' [hs' hz'] z'] n']. unfold pickled. cbn [se_key se_nonce ak_string ak_size ak_hmac hk_string hk_size]. intros H. apply enc_text_inj in H as [-> H]. apply enc_Z_inj in H as [-> H]. apply enc_text_inj in H as [-> H]. apply enc_Z_inj in H as [-> H].
  destruct n, n'; try discriminate H; [injection H as ->|]; reflexivity.
Qed.
Example C82_case : exists s s' ks ks', tells_apart pickled /\ s <> s' /\ session_crypter s = Ok ks /\ session_crypter s' = Ok ks' /\ NoDup [s; s'].
Proof.
  destruct (Session_New (fun _ => x01)) as [s|] eqn:E; [|discriminate E]. destruct (Session_New (fun _ => x02)) as [s'|] eqn:E'; [|discriminate E'].
  assert (N : s <> s') by (intros ->; rewrite <- E' in E; apply (f_equal (fun r => match r with Ok s => se_nonce s | Raise _ => None end)) in E; vm_compute in E; discriminate E).
  assert (G : good_session s) by (destruct (New_good (fun _ => x01)) as (s0 & n & E0 & G & _); rewrite E in E0; apply Ok_inj in E0 as ->; exact G).
  assert (G' : good_session s') by (destruct (New_good (fun _ => x02)) as (s0 & n & E0 & G0 & _); rewrite E' in E0; apply Ok_inj in E0 as ->; exact G0).
  destruct (session_crypter_ok s G) as (ks & EK & _). destruct (session_crypter_ok s' G') as (ks' & EK' & _). exists s, s', ks, ks'.
  split; [exact pickled_apart|]. split; [exact N|]. split; [exact EK|]. split; [exact EK'|]. constructor; [intros [->|[]]; apply N; reflexivity | constructor; [intros [] | constructor]].
Qed.
