(** * Props_Back: plug-in readers and writers (C83). *)
From Coq Require Import Strings.String.
From Coq Require Import List ZArith NArith Bool Lia ZifyBool ZifyNat ZifyN.
From Coq.Init Require Import Byte.
From Verif Require Import PyBase PyFacts KeyData Keyczar KeyczarFacts Backends.
Import ListNotations.
Local Open Scope nat_scope.

(** ** Specification *)

(** Processes: keyczar is imported, then readers and writers are asked for any number of times,
    while the files, the environment and the locations may change. *)
Inductive process_at (ex : str -> bool) (own : str) : proc -> Prop :=
| process_started path modules : process_at ex own (started ex path modules)
| process_called p side w env loc : process_at ex own p -> process_at ex own (fst (create side w own env p loc)).

(** The file of the module [n] in the directory [d]. *)
Definition offers (w : world) (d n : str) (m : pyfile) : Prop := exists files, w d = Some (Dir files) /\ assoc str_eqb files (n ++ dot_py) = Some m.
(** What an import of [n] executes, given the directories in the order in which they are searched. *)
Definition found_in (w : world) (path : list str) (n : str) (m : pyfile) : Prop :=
  exists before d after, path = before ++ d :: after /\ offers w d n m /\ forall d' m', In d' before -> ~ offers w d' n m'.

(** The directories to import from: the own one, and the parts of the variable between colons. *)
Definition part_of (env d : str) : Prop :=
  exists a b, env = a ++ d ++ b /\ ~ In x3a d /\ (a = [] \/ exists a', a = a' ++ [x3a]) /\ (b = [] \/ exists b', b = x3a :: b').
Definition configured (own env d : str) : Prop := d = own \/ env <> [] /\ part_of env d.
(** Python files in them. *)
Definition plugin_file (w : world) (own env n : str) : Prop :=
  exists d files m, configured own env d /\ w d = Some (Dir files) /\ In (n ++ dot_py, m) files.

Definition readers_of (m : option pyfile) : list backend := match m with Some (Defines rs _) => filter b_direct rs | _ => [] end.
Definition writers_of (m : option pyfile) : list backend := match m with Some (Defines _ ws) => filter b_direct ws | _ => [] end.

(** ** Proofs *)

Lemma in_list_In l s : in_list l s = true <-> In s l.
Proof.
  unfold in_list. rewrite existsb_exists. split; [intros (x & HI & E); apply str_eqb_eq in E as ->; exact HI | intros H; exists s; split; [exact H | apply str_eqb_refl]].
Qed.
Lemma in_list_false l s : in_list l s = false <-> ~ In s l.
Proof. rewrite <- in_list_In. destruct (in_list l s); split; intros H; congruence. Qed.

Lemma find_found w path n m : find_module w path n = Some m <-> found_in w path n m.
Proof.
  split.
  - induction path as [|d path IH]; cbn [find_module]; [discriminate|].
    assert (S : (forall m', ~ offers w d n m') -> find_module w path n = Some m -> found_in w (d :: path) n m).
    { intros N H. destruct (IH H) as (b & d0 & a & -> & HO & HB). exists (d :: b), d0, a. split; [reflexivity|]. split; [exact HO|]. intros d' m' [<-|HI]; [apply N | exact (HB d' m' HI)]. }
    destruct (w d) as [[files|]|] eqn:E.
    + destruct (assoc str_eqb files (n ++ dot_py)) as [m0|] eqn:A.
      * intros H. apply Some_inj in H as <-. exists [], d, path. split; [reflexivity|]. split; [exists files; split; assumption|]. intros d' m' [].
      * apply S. intros m' (fs & E' & A'). congruence.
    + apply S. intros m' (fs & E' & A'). congruence.
    + apply S. intros m' (fs & E' & A'). congruence.
  - intros (b & d & a & -> & (files & E & A) & HB). induction b as [|d0 b IH]; cbn [app find_module]; [rewrite E, A; reflexivity|].
    rewrite IH by (intros d' m' HI; apply HB; right; exact HI). destruct (w d0) as [[fs|]|] eqn:E0; try reflexivity. destruct (assoc str_eqb fs (n ++ dot_py)) as [m0|] eqn:A0; [|reflexivity].
    exfalso. apply (HB d0 m0 (or_introl eq_refl)). exists fs. split; assumption.
Qed.
Lemma find_more w path more n m : find_module w path n = Some m -> find_module w (path ++ more) n = Some m.
Proof. intros H. apply find_found in H as (b & d & a & -> & HO & HB). apply find_found. exists b, d, (a ++ more). split; [rewrite <- app_assoc; reflexivity | split; assumption]. Qed.

(** What one import, or several, can do: [sys.path] and the classes grow at the end. *)
Record grown (w : world) (p p' : proc) (ds new : list str) : Prop := MkGrown {
  g_path : p_path p' = p_path p ++ ds;
  g_modules : p_modules p' = p_modules p ++ new;
  g_new : NoDup new /\ forall n, In n new -> ~ In n (p_modules p) /\ n <> [] /\ has_dot n = false /\ exists rs ws, find_module w (p_path p') n = Some (Defines rs ws);
  g_readers : p_readers p' = p_readers p ++ flat_map (fun n => readers_of (find_module w (p_path p') n)) new;
  g_writers : p_writers p' = p_writers p ++ flat_map (fun n => writers_of (find_module w (p_path p') n)) new }.
Lemma grown_refl w p : grown w p p [] [].
Proof. constructor; try (rewrite app_nil_r; reflexivity). split; [constructor | intros n []]. Qed.
Lemma NoDup_app {A} (a b : list A) : NoDup a -> NoDup b -> (forall x, In x b -> ~ In x a) -> NoDup (a ++ b).
Proof.
  intros Ha Hb D. induction Ha as [|x a N _ IH]; [exact Hb|]. cbn [app]. constructor; [|apply IH; intros y Hy HI; apply (D y Hy); right; exact HI].
  intros HI. apply in_app_or in HI as [HI|HI]; [contradiction | apply (D x HI); left; reflexivity].
Qed.
Lemma grown_trans w p p1 p2 ds1 new1 ds2 new2 : grown w p p1 ds1 new1 -> grown w p1 p2 ds2 new2 -> grown w p p2 (ds1 ++ ds2) (new1 ++ new2).
Proof.
  intros [P1 M1 [N1 F1] R1 W1] [P2 M2 [N2 F2] R2 W2].
  assert (X : forall n, In n new1 -> find_module w (p_path p2) n = find_module w (p_path p1) n).
  { intros n HI. destruct (F1 n HI) as (_ & _ & _ & rs & ws & E). rewrite E, P2. apply find_more, E. }
  constructor.
  - rewrite P2, P1, app_assoc. reflexivity.
  - rewrite M2, M1, app_assoc. reflexivity.
  - split.
    + apply NoDup_app; [exact N1 | exact N2|]. intros n HI HI1. apply (proj1 (F2 n HI)). rewrite M1. apply in_or_app. right. exact HI1.
    + intros n HI. apply in_app_or in HI as [HI|HI].
      * destruct (F1 n HI) as (A & B & C & D). rewrite (X n HI). repeat (split; [assumption|]). exact D.
      * destruct (F2 n HI) as (A & B & C & D). split; [intros HM; apply A; rewrite M1; apply in_or_app; left; exact HM|]. repeat (split; [assumption|]). exact D.
  - rewrite R2, R1, flat_map_app, app_assoc. f_equal. f_equal. clear -X. induction new1 as [|n l IH]; [reflexivity|]. cbn [flat_map]. rewrite (X n (or_introl eq_refl)), IH; [reflexivity|]. intros n' H. apply X. right. exact H.
  - rewrite W2, W1, flat_map_app, app_assoc. f_equal. f_equal. clear -X. induction new1 as [|n l IH]; [reflexivity|]. cbn [flat_map]. rewrite (X n (or_introl eq_refl)), IH; [reflexivity|]. intros n' H. apply X. right. exact H.
Qed.
Lemma grown_module w p n : exists new, grown w p (fst (import_module w p n)) [] new /\ incl new [n] /\ (snd (import_module w p n) = Got tt -> In n (p_modules (fst (import_module w p n)))).
Proof.
  unfold import_module. destruct n as [|c n]; [exists []; split; [apply grown_refl | split; [intros x [] | discriminate]]|]. set (m := c :: n). destruct (in_list (p_modules p) m) eqn:E.
  - exists []. split; [apply grown_refl|]. split; [intros x []|]. intros _. apply in_list_In, E.
  - destruct (has_dot m) eqn:ED; [exists []; split; [apply grown_refl | split; [intros x [] | discriminate]]|]. destruct (find_module w (p_path p) m) as [[rs ws|]|] eqn:EF; [|exists []; split; [apply grown_refl | split; [intros x [] | discriminate]] ..].
    exists [m]. cbn [fst snd p_modules]. split; [|split; [intros x HX; exact HX | intros _; apply in_or_app; right; left; reflexivity]]. constructor; cbn [p_path p_modules p_readers p_writers flat_map].
    + rewrite app_nil_r. reflexivity.
    + reflexivity.
    + split; [constructor; [intros [] | constructor]|]. intros k [<-|[]]. split; [apply in_list_false, E|]. split; [discriminate|]. split; [exact ED|]. exists rs, ws. exact EF.
    + rewrite EF. cbn [readers_of]. rewrite app_nil_r. reflexivity.
    + rewrite EF. cbn [writers_of]. rewrite app_nil_r. reflexivity.
Qed.
Lemma grown_modules w ns : forall p, exists new, grown w p (fst (import_modules w p ns)) [] new /\ incl new ns /\ (snd (import_modules w p ns) = Got tt -> forall n, In n ns -> In n (p_modules (fst (import_modules w p ns)))).
Proof.
  induction ns as [|n ns IH]; intros p; cbn [import_modules]; [exists []; split; [apply grown_refl | split; [intros x [] | intros _ n []]]|].
  destruct (grown_module w p n) as (new1 & G1 & I1 & H1). assert (I1' : incl new1 (n :: ns)) by (intros x HX; destruct (I1 x HX) as [<-|[]]; left; reflexivity). destruct (import_module w p n) as [p1 r]. cbn [fst snd] in *. destruct r as [[]| |f]; cbn [fst snd].
  - destruct (IH p1) as (new2 & G2 & I2 & H2). exists (new1 ++ new2). split; [exact (grown_trans _ _ _ _ _ _ _ _ G1 G2)|]. split; [intros x HX; apply in_app_or in HX as [HX|HX]; [exact (I1' x HX) | right; exact (I2 x HX)]|].
    intros HG k [<-|HI]; [|exact (H2 HG k HI)]. rewrite (g_modules _ _ _ _ _ G2). apply in_or_app. left. apply H1. reflexivity.
  - exists new1. split; [exact G1 | split; [exact I1' | discriminate]].
  - exists new1. split; [exact G1 | split; [exact I1' | discriminate]].
Qed.
Lemma grown_path w p d : grown w p (MkProc (p_path p ++ [d]) (p_modules p) (p_readers p) (p_writers p)) [d] [].
Proof. constructor; cbn [p_path p_modules p_readers p_writers flat_map]; try (rewrite app_nil_r; reflexivity); try reflexivity. split; [constructor | intros n []]. Qed.
Definition from_dirs (w : world) (ds : list str) (n : str) : Prop := exists d files, In d ds /\ w d = Some (Dir files) /\ In n (plugin_names files).
Lemma grown_all w p d : exists ds new, grown w p (fst (ImportAll w p d)) ds new /\ incl ds [d] /\ (forall n, In n new -> from_dirs w [d] n) /\
  (snd (ImportAll w p d) = Got tt -> forall files, w d = Some (Dir files) -> In d (p_path (fst (ImportAll w p d))) /\ forall n, In n (plugin_names files) -> In n (p_modules (fst (ImportAll w p d)))).
Proof.
  unfold ImportAll. destruct (w d) as [[files|]|] eqn:ED; [|exists [], []; split; [apply grown_refl | split; [intros x [] | split; [intros x [] | discriminate]]] ..].
  assert (FD : forall new, incl new (plugin_names files) -> forall n, In n new -> from_dirs w [d] n) by (intros new HX n HN; exists d, files; split; [left; reflexivity | split; [exact ED | exact (HX n HN)]]).
  destruct (in_list (p_path p) d) eqn:E.
  - destruct (grown_modules w (plugin_names files) p) as (new & G & I & H). exists [], new. split; [exact G|]. split; [intros x []|]. split; [exact (FD new I)|]. intros HG fs EF. injection EF as <-. split; [|exact (H HG)]. rewrite (g_path _ _ _ _ _ G), app_nil_r. apply in_list_In, E.
  - destruct (grown_modules w (plugin_names files) (MkProc (p_path p ++ [d]) (p_modules p) (p_readers p) (p_writers p))) as (new & G & I & H). exists ([d] ++ []), ([] ++ new). split; [exact (grown_trans _ _ _ _ _ _ _ _ (grown_path w p d) G)|].
    split; [intros x HX; exact HX|]. split; [exact (FD new I)|]. intros HG fs EF. injection EF as <-. split; [|exact (H HG)]. rewrite (g_path _ _ _ _ _ G), app_nil_r. cbn [p_path]. apply in_or_app. right. left. reflexivity.
Qed.
Lemma grown_dirs w ds : forall p, exists more new, grown w p (fst (import_dirs w p ds)) more new /\ incl more ds /\ (forall n, In n new -> from_dirs w ds n) /\
  (snd (import_dirs w p ds) = Got tt -> forall d files, In d ds -> w d = Some (Dir files) -> In d (p_path (fst (import_dirs w p ds))) /\ forall n, In n (plugin_names files) -> In n (p_modules (fst (import_dirs w p ds)))).
Proof.
  induction ds as [|d ds IH]; intros p; cbn [import_dirs]; [exists [], []; split; [apply grown_refl | split; [intros x [] | split; [intros x [] | intros _ d fs []]]]|].
  destruct (grown_all w p d) as (m1 & new1 & G1 & I1 & J1 & H1). assert (I1' : incl m1 (d :: ds)) by (intros x HX; destruct (I1 x HX) as [<-|[]]; left; reflexivity).
  assert (J1' : forall n, In n new1 -> from_dirs w (d :: ds) n) by (intros n HN; destruct (J1 n HN) as (d' & fs & [<-|[]] & HX); exists d, fs; split; [left; reflexivity | exact HX]).
  destruct (ImportAll w p d) as [p1 r]. cbn [fst snd] in *. destruct r as [[]| |f]; cbn [fst snd].
  - destruct (IH p1) as (m2 & new2 & G2 & I2 & J2 & H2). exists (m1 ++ m2), (new1 ++ new2). split; [exact (grown_trans _ _ _ _ _ _ _ _ G1 G2)|].
    split; [intros x HX; apply in_app_or in HX as [HX|HX]; [exact (I1' x HX) | right; exact (I2 x HX)]|].
    split; [intros n HX; apply in_app_or in HX as [HX|HX]; [exact (J1' n HX) | destruct (J2 n HX) as (d' & fs & HI & HR); exists d', fs; split; [right; exact HI | exact HR]]|].
    intros HG k fs [<-|HI] EF; [|exact (H2 HG k fs HI EF)]. destruct (H1 eq_refl fs EF) as [A B]. split; [rewrite (g_path _ _ _ _ _ G2); apply in_or_app; left; exact A|]. intros n HN. rewrite (g_modules _ _ _ _ _ G2). apply in_or_app. left. exact (B n HN).
  - exists m1, new1. split; [exact G1|]. split; [exact I1' | split; [exact J1' | discriminate]].
  - exists m1, new1. split; [exact G1|]. split; [exact I1' | split; [exact J1' | discriminate]].
Qed.

(** The parts of the variable, and the names of the files. *)
Lemma split_part env : forall d, In d (split_colon env) <-> part_of env d.
Proof.
  assert (H : forall env, exists a l, split_colon env = a :: l /\ ~ In x3a a /\ ((env = a /\ l = []) \/ exists rest, env = a ++ x3a :: rest /\ l = split_colon rest)).
  { induction env0 as [|c e IH]; [exists [], []; split; [reflexivity|]; split; [intros [] | left; split; reflexivity]|]. cbn [split_colon]. destruct (beqb c x3a) eqn:E.
    - apply beqb_eq in E as ->. exists [], (split_colon e). split; [reflexivity|]. split; [intros [] | right; exists e; split; reflexivity].
    - destruct IH as (a & l & -> & NA & D). exists (c :: a), l. split; [reflexivity|]. split; [intros [->|HI]; [rewrite (proj2 (beqb_eq x3a x3a) eq_refl) in E; discriminate E | exact (NA HI)]|].
      destruct D as [[-> ->]|(rest & -> & ->)]; [left; split; reflexivity | right; exists rest; split; reflexivity]. }
  assert (L : forall n env, List.length env <= n -> forall d, In d (split_colon env) <-> part_of env d).
  { induction n as [|n IH]; intros e HL d.
    - destruct e; [|cbn in HL; lia]. cbn [split_colon In]. split.
      + intros [<-|[]]. exists [], []. repeat split; [intros [] | left; reflexivity | left; reflexivity].
      + intros (a & b & E & _ & _). left. destruct a, d; try discriminate E. reflexivity.
    - destruct (H e) as (a & l & EQ & NA & D). rewrite EQ. destruct D as [[-> ->]|(rest & -> & ->)].
      + split.
        * intros [<-|[]]. exists [], []. rewrite app_nil_r. repeat split; [exact NA | left; reflexivity | left; reflexivity].
        * intros (x & y & E & ND & Hx & Hy). left. destruct Hx as [->|(x' & ->)]; [|exfalso; apply NA; rewrite E; apply in_or_app; left; apply in_or_app; right; left; reflexivity].
          destruct Hy as [->|(y' & ->)]; [rewrite app_nil_r in E; exact E | exfalso; apply NA; rewrite E; cbn [app]; apply in_or_app; right; left; reflexivity].
      + cbn [In]. rewrite (IH rest) by (rewrite app_length in HL; cbn in HL; lia). split.
        * intros [<-|(x & y & -> & ND & Hx & Hy)].
          -- exists [], (x3a :: rest). repeat split; [exact NA | left; reflexivity | right; exists rest; reflexivity].
          -- exists (a ++ x3a :: x), y. split; [rewrite <- app_assoc; reflexivity|]. split; [exact ND|]. split; [|exact Hy]. right. destruct Hx as [->|(x' & ->)]; [exists a; reflexivity | exists (a ++ x3a :: x'); rewrite <- app_assoc; reflexivity].
        * intros (x & y & E & ND & Hx & Hy). destruct Hx as [->|(x' & ->)].
          -- left. cbn [app] in E. destruct Hy as [->|(y' & ->)].
             ++ exfalso. rewrite app_nil_r in E. apply ND. rewrite <- E. apply in_or_app. right. left. reflexivity.
             ++ clear -E NA ND. revert d E ND. induction a as [|c a IHa]; intros d E ND; destruct d as [|c' d]; cbn [app] in E.
                ** reflexivity.
                ** injection E as <- E. exfalso. apply ND. left. reflexivity.
                ** injection E as -> E. exfalso. apply NA. left. reflexivity.
                ** injection E as <- E. f_equal. apply IHa; [intros HI; apply NA; right; exact HI | exact E | intros HI; apply ND; right; exact HI].
          -- right. assert (X : exists x'', (x' ++ [x3a]) = a ++ x3a :: x'' /\ rest = x'' ++ d ++ y).
             { clear -E NA. revert x' E. induction a as [|c a IHa]; intros x' E.
               - destruct x' as [|c x']; cbn [app] in E; [injection E as E; exists []; split; [reflexivity | exact E] | injection E as E0 E; subst c; exists (x' ++ [x3a]); split; [reflexivity | exact E]].
               - destruct x' as [|c' x']; cbn [app] in E; injection E as E0 E.
                 + exfalso. apply NA. left. exact E0.
                 + subst c'. destruct (IHa (fun HI => NA (or_intror HI)) x' E) as (x'' & E1 & E2). exists x''. cbn [app]. rewrite E1. split; [reflexivity | exact E2]. }
             destruct X as (x'' & E1 & ->). exists x'', y. split; [reflexivity|]. split; [exact ND|]. split; [|exact Hy]. destruct x'' as [|c x''] using rev_ind; [left; reflexivity|]. right. exists x''.
             replace (a ++ x3a :: x'' ++ [c]) with ((a ++ x3a :: x'') ++ [c]) in E1 by (rewrite <- app_assoc; reflexivity). apply app_inj_tail in E1 as [_ <-]. reflexivity. }
  intros d. exact (L (List.length env) env (le_n _) d).
Qed.
Lemma dirs_configured own env d : In d (backend_dirs own env) <-> configured own env d.
Proof.
  unfold backend_dirs, configured. cbn [In]. destruct env as [|c env].
  - split; [intros [<-|[]]; left; reflexivity | intros [->|[N _]]; [left; reflexivity | destruct (N eq_refl)]].
  - rewrite split_part. split; [intros [<-|H]; [left; reflexivity | right; split; [discriminate | exact H]] | intros [->|[_ H]]; [left; reflexivity | right; exact H]].
Qed.
Lemma names_of files n : In n (plugin_names files) <-> exists m, In (n ++ dot_py, m) files.
Proof.
  unfold plugin_names. rewrite in_map_iff. split.
  - intros (f & <- & H). apply filter_In in H as [HI HE]. apply in_map_iff in HI as ([f' m] & E & HI). cbn [fst] in E. subst f'. exists m. unfold ends_py in HE. apply str_eqb_eq in HE. rewrite <- HE. unfold stem. rewrite firstn_skipn. exact HI.
  - intros (m & HM). exists (n ++ dot_py). split.
    + unfold stem. rewrite app_length. replace (List.length n + List.length dot_py - 3) with (List.length n) by (cbn; lia). rewrite firstn_app, Nat.sub_diag, firstn_all, firstn_O, app_nil_r. reflexivity.
    + apply filter_In. split; [apply (in_map fst) in HM; exact HM|]. unfold ends_py. rewrite app_length. replace (List.length n + List.length dot_py - 3) with (List.length n) by (cbn; lia).
      rewrite skipn_app, Nat.sub_diag, skipn_all. reflexivity.
Qed.

(** Repeating an import changes nothing and has the same result. *)
Lemma again_module w p n : forall q ds new, grown w (fst (import_module w p n)) q ds new -> snd (import_module w p n) = Got tt -> import_module w q n = (q, Got tt).
Proof.
  intros q ds new G HG. destruct (grown_module w p n) as (new1 & _ & _ & H1). specialize (H1 HG). assert (HI : In n (p_modules q)) by (rewrite (g_modules _ _ _ _ _ G); apply in_or_app; left; exact H1).
  destruct n as [|c n]; [discriminate HG|]. unfold import_module. apply in_list_In in HI. rewrite HI. reflexivity.
Qed.
Lemma failed_module w p n f : snd (import_module w p n) = Failed f -> fst (import_module w p n) = p.
Proof.
  unfold import_module. destruct n; [reflexivity|]. destruct (in_list _ _); [discriminate|]. destruct (has_dot _); [reflexivity|]. destruct (find_module _ _ _) as [[|]|]; [discriminate | reflexivity ..].
Qed.
Lemma not_refused_module w p n : snd (import_module w p n) <> Refused.
Proof. unfold import_module. destruct n; [discriminate|]. destruct (in_list _ _); [discriminate|]. destruct (has_dot _); [discriminate|]. destruct (find_module _ _ _) as [[|]|]; discriminate. Qed.
Lemma again_modules w ns : forall p q ds new, grown w (fst (import_modules w p ns)) q ds new -> (snd (import_modules w p ns) = Got tt -> import_modules w q ns = (q, Got tt)) /\
  import_modules w (fst (import_modules w p ns)) ns = import_modules w p ns.
Proof.
  induction ns as [|n ns IH]; intros p q ds new G; cbn [import_modules] in *; [split; [intros _; reflexivity | reflexivity]|].
  pose proof (again_module w p n) as A. pose proof (failed_module w p n) as F. pose proof (not_refused_module w p n) as NR. destruct (import_module w p n) as [p1 r] eqn:E1. cbn [fst snd] in *. destruct r as [[]| |f].
  - destruct (grown_modules w ns p1) as (new2 & G2 & _). destruct (IH p1 q ds new G) as [B1 B2]. split.
    + intros HG. rewrite (A q ([] ++ ds) (new2 ++ new) (grown_trans _ _ _ _ _ _ _ _ G2 G) eq_refl). exact (B1 HG).
    + rewrite (A _ _ _ G2 eq_refl). exact B2.
  - destruct (NR eq_refl).
  - cbn [fst snd] in *. split; [discriminate|]. specialize (F f eq_refl). subst p1. rewrite E1. reflexivity.
Qed.
Lemma again_all w p d q ds new : grown w (fst (ImportAll w p d)) q ds new -> (snd (ImportAll w p d) = Got tt -> ImportAll w q d = (q, Got tt)) /\ ImportAll w (fst (ImportAll w p d)) d = ImportAll w p d.
Proof.
  unfold ImportAll. destruct (w d) as [[files|]|]; [|split; [discriminate | reflexivity] | split; [intros _|]; reflexivity].
  set (p0 := if in_list (p_path p) d then p else _). intros G. destruct (again_modules w (plugin_names files) p0 q ds new G) as [B1 B2]. destruct (grown_modules w (plugin_names files) p0) as (new2 & G2 & _).
  assert (H0 : In d (p_path p0)) by (unfold p0; destruct (in_list (p_path p) d) eqn:E; [apply in_list_In, E | cbn [p_path]; apply in_or_app; right; left; reflexivity]).
  assert (H1 : In d (p_path (fst (import_modules w p0 (plugin_names files))))) by (rewrite (g_path _ _ _ _ _ G2); apply in_or_app; left; exact H0).
  assert (H2 : In d (p_path q)) by (rewrite (g_path _ _ _ _ _ G); apply in_or_app; left; exact H1).
  apply in_list_In in H1, H2. rewrite H1, H2. split; [exact B1 | exact B2].
Qed.
Lemma not_refused_modules w ns : forall p, snd (import_modules w p ns) <> Refused.
Proof. induction ns as [|n ns IH]; intros p; cbn [import_modules]; [discriminate|]. pose proof (not_refused_module w p n) as H. destruct (import_module w p n) as [p1 r]. cbn [snd] in H. destruct r; [apply IH | destruct (H eq_refl) | discriminate]. Qed.
Lemma not_refused_all w p d : snd (ImportAll w p d) <> Refused.
Proof. unfold ImportAll. destruct (w d) as [[files|]|]; [apply not_refused_modules | discriminate ..]. Qed.
Lemma not_refused_dirs w ds : forall p, snd (import_dirs w p ds) <> Refused.
Proof. induction ds as [|d ds IH]; intros p; cbn [import_dirs]; [discriminate|]. pose proof (not_refused_all w p d) as H. destruct (ImportAll w p d) as [p1 r]. cbn [snd] in H. destruct r; [apply IH | destruct (H eq_refl) | discriminate]. Qed.
Lemma again_dirs w ds : forall p, import_dirs w (fst (import_dirs w p ds)) ds = import_dirs w p ds.
Proof.
  induction ds as [|d ds IH]; intros p; cbn [import_dirs]; [reflexivity|]. pose proof (again_all w p d) as A. pose proof (not_refused_all w p d) as NR. destruct (ImportAll w p d) as [p1 r] eqn:E1. cbn [fst snd] in *. destruct r as [[]| |f].
  - destruct (grown_dirs w ds p1) as (more & new & G & _). destruct (A _ _ _ G) as [B _]. rewrite (B eq_refl). apply IH.
  - destruct (NR eq_refl).
  - cbn [fst]. destruct (A p1 [] [] (grown_refl w p1)) as [_ B]. rewrite B. reflexivity.
Qed.

Lemma process_lists ex own p : process_at ex own p -> exists rs ws, p_readers p = own_readers ex ++ rs /\ p_writers p = own_writers ex ++ ws.
Proof.
  induction 1 as [path modules|p side w env loc _ (rs & ws & ER & EW)]; [exists [], []; split; rewrite app_nil_r; reflexivity|].
  destruct (grown_dirs w (backend_dirs own env) p) as (more & new & G & _). unfold create, ImportBackends. destruct (import_dirs w p (backend_dirs own env)) as [p' r]. cbn [fst] in G.
  exists (rs ++ flat_map (fun n => readers_of (find_module w (p_path p') n)) new), (ws ++ flat_map (fun n => writers_of (find_module w (p_path p') n)) new).
  destruct r; cbn [fst]; rewrite (g_readers _ _ _ _ _ G), (g_writers _ _ _ _ _ G), ER, EW, <- !app_assoc; split; reflexivity.
Qed.

Definition declined (loc : str) (b : backend) : Prop := b_create b loc = Some false.
Lemma choose_skip l1 l2 loc : Forall (declined loc) l1 -> choose (l1 ++ l2) loc = choose l2 loc.
Proof. induction 1 as [|b l1 H _ IH]; [reflexivity|]. cbn [app choose]. rewrite H. exact IH. Qed.
Lemma choose_Got l loc b : choose l loc = Got b <-> exists l1 l2, l = l1 ++ b :: l2 /\ Forall (declined loc) l1 /\ b_create b loc = Some true.
Proof.
  split.
  - induction l as [|a l IH]; cbn [choose]; [discriminate|]. destruct (b_create a loc) as [[|]|] eqn:E; [| |discriminate].
    + intros H. injection H as ->. exists [], l. split; [reflexivity|]. split; [constructor | exact E].
    + intros H. destruct (IH H) as (l1 & l2 & -> & F & EB). exists (a :: l1), l2. split; [reflexivity|]. split; [constructor; assumption | exact EB].
  - intros (l1 & l2 & -> & F & EB). rewrite (choose_skip _ _ _ F). cbn [choose]. rewrite EB. reflexivity.
Qed.
Lemma choose_Refused l loc : choose l loc = Refused <-> Forall (declined loc) l.
Proof.
  split.
  - induction l as [|a l IH]; cbn [choose]; [constructor|]. destruct (b_create a loc) as [[|]|] eqn:E; [discriminate | | discriminate]. intros H. constructor; [exact E | exact (IH H)].
  - intros F. rewrite <- (app_nil_r l), (choose_skip _ _ _ F). reflexivity.
Qed.

(** ** C83 *)

(** Whatever is plugged in: a location that exists is served by the file reader and writer. *)
Theorem C83_existing_location : forall ex own env w p p' loc, process_at ex own p -> ImportBackends w own env p = (p', Got tt) -> ex loc = true ->
  create p_readers w own env p loc = (p', Got (file_backend ex "FileReader")) /\ create p_writers w own env p loc = (p', Got (file_backend ex "FileWriter")).
Proof.
  intros ex own env w p p' loc HP HI HE. assert (HP' : process_at ex own p') by (pose proof (process_called ex own p p_readers w env loc HP) as H; unfold create in H; rewrite HI in H; exact H).
  destruct (process_lists ex own p' HP') as (rs & ws & ER & EW). unfold create. rewrite HI, ER, EW. cbn [own_readers own_writers app choose file_backend b_create]. rewrite HE. split; reflexivity.
Qed.
Print Assumptions C83_existing_location.

(** Another location is served by the first class that accepts it, of those that were plugged in, in
    the order in which they were imported; if all decline it, KeyczarError is raised. *)
Theorem C83_other_location : forall ex own env w p p' loc, process_at ex own p -> ImportBackends w own env p = (p', Got tt) -> ex loc = false ->
  exists rs ws, p_readers p' = own_readers ex ++ rs /\ p_writers p' = own_writers ex ++ ws /\
    forall plugged side, (plugged = rs /\ side = p_readers) \/ (plugged = ws /\ side = p_writers) ->
      (forall b, snd (create side w own env p loc) = Got b <-> exists l1 l2, plugged = l1 ++ b :: l2 /\ Forall (fun c => b_create c loc = Some false) l1 /\ b_create b loc = Some true) /\
      (snd (create side w own env p loc) = Refused <-> Forall (fun c => b_create c loc = Some false) plugged).
Proof.
  intros ex own env w p p' loc HP HI HE. assert (HP' : process_at ex own p') by (pose proof (process_called ex own p p_readers w env loc HP) as H; unfold create in H; rewrite HI in H; exact H).
  destruct (process_lists ex own p' HP') as (rs & ws & ER & EW). exists rs, ws. split; [exact ER|]. split; [exact EW|]. intros plugged side HS.
  assert (E : snd (create side w own env p loc) = choose plugged loc).
  { unfold create. rewrite HI. cbn [snd]. destruct HS as [[-> ->]|[-> ->]]; rewrite ?ER, ?EW; apply choose_skip; repeat constructor; unfold declined; cbn [b_create file_backend]; rewrite HE; reflexivity. }
  rewrite E. split; [intros b; apply choose_Got | apply choose_Refused].
Qed.
Print Assumptions C83_other_location.

(** What is plugged in: every .py file of every such directory is imported, each name once, and what
    is executed for a name is the file found first in [sys.path], at whose end the directories are. *)
Theorem C83_imported : forall own env w p p', ImportBackends w own env p = (p', Got tt) ->
  exists more new, p_path p' = p_path p ++ more /\ (forall d, In d more -> configured own env d) /\
    p_modules p' = p_modules p ++ new /\ NoDup new /\
    p_readers p' = p_readers p ++ flat_map (fun n => readers_of (find_module w (p_path p') n)) new /\
    p_writers p' = p_writers p ++ flat_map (fun n => writers_of (find_module w (p_path p') n)) new /\
    (forall n, In n new -> plugin_file w own env n /\ ~ In n (p_modules p) /\ exists rs ws, found_in w (p_path p') n (Defines rs ws)) /\
    (forall n, plugin_file w own env n -> In n (p_modules p')) /\
    (forall d files, configured own env d -> w d = Some (Dir files) -> In d (p_path p')).
Proof.
  intros own env w p p' HI. unfold ImportBackends in HI. destruct (grown_dirs w (backend_dirs own env) p) as (more & new & G & IN & J & H). rewrite HI in G, H. cbn [fst snd] in G, H. exists more, new.
  split; [exact (g_path _ _ _ _ _ G)|]. split; [intros d HD; apply dirs_configured, IN, HD|]. split; [exact (g_modules _ _ _ _ _ G)|]. split; [exact (proj1 (g_new _ _ _ _ _ G))|]. split; [exact (g_readers _ _ _ _ _ G)|]. split; [exact (g_writers _ _ _ _ _ G)|]. split; [|split].
  - intros n HN. split.
    + destruct (J n HN) as (d & fs & HD & EF & HF). apply dirs_configured in HD. apply names_of in HF as (m & HF). exists d, fs, m. repeat split; assumption.
    + destruct (proj2 (g_new _ _ _ _ _ G) n HN) as (A & _ & _ & rs & ws & E). split; [exact A|]. exists rs, ws. apply find_found, E.
  - intros n (d & files & m & HD & EF & HM). apply dirs_configured in HD. apply (proj2 (H eq_refl d files HD EF)), names_of. exists m. exact HM.
  - intros d files HD EF. apply dirs_configured in HD. exact (proj1 (H eq_refl d files HD EF)).
Qed.
Print Assumptions C83_imported.

(** So a file whose name is neither in use already nor in another directory of [sys.path] is plugged in. *)
Theorem C83_plugged_in : forall own env w p p' d n rs ws, ImportBackends w own env p = (p', Got tt) ->
  configured own env d -> offers w d n (Defines rs ws) ->
  ~ In n (p_modules p) -> (forall d' m, In d' (p_path p') -> d' <> d -> ~ offers w d' n m) ->
  incl (filter b_direct rs) (p_readers p') /\ incl (filter b_direct ws) (p_writers p').
Proof.
  intros own env w p p' d n rs ws HI HD (files & EF & EM) HN HO. destruct (C83_imported own env w p p' HI) as (more & new & EP & _ & EN & _ & ER & EW & HF & HA & _).
  assert (HNP : In n (p_modules p')) by (apply HA; exists d, files, (Defines rs ws); split; [exact HD | split; [exact EF | exact (assoc_In str_eqb_eq EM)]]). rewrite EN in HNP. apply in_app_or in HNP as [HNP|HNP]; [contradiction|].
  assert (E : find_module w (p_path p') n = Some (Defines rs ws)).
  { destruct (HF n HNP) as (_ & _ & r2 & w2 & HFI). pose proof HFI as HFI'. apply find_found in HFI'. rewrite HFI'. destruct HFI as (b2 & d2 & a2 & E2 & (fs & Ew & Ea) & _).
    assert (d2 = d) as ->. { destruct (str_eqb d2 d) eqn:E; [apply str_eqb_eq, E|]. exfalso. apply (HO d2 (Defines r2 w2)); [rewrite E2; apply in_or_app; right; left; reflexivity | apply str_eqb_neq, E | exists fs; split; assumption]. } congruence. }
  split; intros x HX; [rewrite ER | rewrite EW]; apply in_or_app; right; apply in_flat_map; exists n; (split; [exact HNP|]); rewrite E; exact HX.
Qed.
Print Assumptions C83_plugged_in.

(** Asking again imports nothing again: as long as files and environment stay, the process stays. *)
Theorem C83_again : forall own env w p p' r, ImportBackends w own env p = (p', r) -> ImportBackends w own env p' = (p', r).
Proof. intros own env w p p' r H. unfold ImportBackends in *. pose proof (again_dirs w (backend_dirs own env) p) as A. rewrite H in A. exact A. Qed.
Print Assumptions C83_again.

(** A file that has the name of a module already in use is not executed: whatever it defines, it is
    as if it were not there.  (Only file of the only directory, for simplicity.) *)
Theorem C83_same_name_refuted : forall own w p n m c, w own = Some (Dir [(n ++ dot_py, m)]) -> n = c :: tl n -> In n (p_modules p) ->
  exists path, ImportBackends w own [] p = (MkProc path (p_modules p) (p_readers p) (p_writers p), Got tt).
Proof.
  intros own w p n m c EW EN HN. unfold ImportBackends, backend_dirs. cbn [import_dirs]. unfold ImportAll. rewrite EW.
  assert (EP : plugin_names [(n ++ dot_py, m)] = [n]).
  { unfold plugin_names. cbn [map fst filter]. unfold ends_py. rewrite app_length. replace (List.length n + List.length dot_py - 3) with (List.length n) by (cbn; lia). rewrite skipn_app, Nat.sub_diag, skipn_all. cbn [map app skipn]. change (str_eqb dot_py dot_py) with true. cbn [map].
    unfold stem. rewrite app_length. replace (List.length n + List.length dot_py - 3) with (List.length n) by (cbn; lia). rewrite firstn_app, Nat.sub_diag, firstn_all, firstn_O, app_nil_r. reflexivity. }
  rewrite EP. cbn [import_modules]. rewrite EN. cbn [import_module]. rewrite <- EN. destruct (in_list (p_path p) own).
  - pose proof (proj2 (in_list_In (p_modules p) n) HN) as X. rewrite X. exists (p_path p). destruct p; reflexivity.
  - cbn [p_modules]. pose proof (proj2 (in_list_In (p_modules p) n) HN) as X. rewrite X. eexists. reflexivity.
Qed.
Print Assumptions C83_same_name_refuted.

(** One file that cannot be imported stops everything: no reader or writer is made for any location,
    existing directories included, now and whenever it is tried again. *)
Theorem C83_broken_file_refuted : forall own env w p p' f, ImportBackends w own env p = (p', Failed f) ->
  forall side loc, create side w own env p loc = (p', Failed f) /\ create side w own env p' loc = (p', Failed f).
Proof. intros own env w p p' f H side loc. pose proof (C83_again own env w p p' _ H) as A. unfold create. rewrite H, A. split; reflexivity. Qed.
Print Assumptions C83_broken_file_refuted.

(** [Read] of a class uses such a reader, except for the two unversioned classes: those know no
    plug-ins, so that a location served by one can be opened by the other classes only; on the other
    hand nothing that is plugged in can stop them. *)
Theorem C83_classes : forall ex w own env p loc c,
  (In c [KeyczarBase; GenericKeyczar; Encrypter; Crypter; Verifier; Signer] -> class_reader c ex w own env p loc = create p_readers w own env p loc) /\
  (In c [UnversionedVerifier; UnversionedSigner] -> class_reader c ex w own env p loc = (p, Got (file_backend ex "FileReader"))).
Proof. intros ex w own env p loc c. split; intros H; repeat (destruct H as [<-|H]; [reflexivity|]); destruct H. Qed.
Print Assumptions C83_classes.

Theorem C83_unversioned_refuted : forall ex own env w p p' loc, process_at ex own p -> ImportBackends w own env p = (p', Got tt) -> ex loc = false ->
  forall b l1 l2, p_readers p' = own_readers ex ++ l1 ++ b :: l2 -> Forall (fun c => b_create c loc = Some false) l1 -> b_create b loc = Some true ->
  snd (class_reader Verifier ex w own env p loc) = Got b /\ snd (class_reader Signer ex w own env p loc) = Got b /\
  exists r, snd (class_reader UnversionedVerifier ex w own env p loc) = Got r /\ snd (class_reader UnversionedSigner ex w own env p loc) = Got r /\ b_create r loc = Some false.
Proof.
  intros ex own env w p p' loc HP HI HE b l1 l2 ER HF HB.
  assert (E : snd (create p_readers w own env p loc) = Got b).
  { unfold create. rewrite HI. cbn [snd]. rewrite ER. rewrite choose_skip; [|repeat constructor; unfold declined; cbn [b_create file_backend]; rewrite HE; reflexivity].
    apply choose_Got. exists l1, l2. repeat split; assumption. }
  split; [exact E|]. split; [exact E|]. eexists. split; [reflexivity|]. split; [reflexivity|]. cbn [b_create file_backend]. rewrite HE. reflexivity.
Qed.
Print Assumptions C83_unversioned_refuted.

(** Two directories, a plug-in reader for web addresses in the second, a file of the same name in
    both, and a directory with a file that cannot be imported. *)
Definition web : backend := MkBackend (bs "WebReader") true (fun l => Some (str_eqb (firstn 5 l) (bs "http:"))).
Definition demo_world : world := fun d =>
  if str_eqb d (bs "/own") then Some (Dir [(bs "notes.txt", Fails); (bs "same.py", Defines [] [])])
  else if str_eqb d (bs "/x") then Some (Dir [(bs "same.py", Fails); (bs "web.py", Defines [web] [])])
  else if str_eqb d (bs "/bad") then Some (Dir [(bs "bad.py", Fails)]) else if str_eqb d (bs "/keys") then Some (Dir []) else None.
Definition demo_ex (l : str) : bool := match demo_world l with Some _ => true | None => false end.
Example C83_case : let p := started demo_ex [bs "/lib"] [bs "sys"] in
  exists p', ImportBackends demo_world (bs "/own") (bs "/x:/none") p = (p', Got tt) /\
    p_path p' = [bs "/lib"; bs "/own"; bs "/x"] /\ p_modules p' = [bs "sys"; bs "same"; bs "web"] /\
    snd (create p_readers demo_world (bs "/own") (bs "/x:/none") p (bs "http://h/k")) = Got web /\
    snd (create p_readers demo_world (bs "/own") (bs "/x:/none") p (bs "/gone")) = Refused /\
    snd (class_reader Verifier demo_ex demo_world (bs "/own") (bs "/x:/none") p (bs "http://h/k")) = Got web /\
    (exists f, snd (create p_readers demo_world (bs "/own") (bs "/x:/bad") p (bs "/keys")) = Failed f) /\ demo_ex (bs "/keys") = true.
Proof. eexists. split; [vm_compute; reflexivity|]. vm_compute. repeat split. eexists. reflexivity. Qed.
