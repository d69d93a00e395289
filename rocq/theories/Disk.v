(** * Disk: directories of files, programs that use them, and how they run: alone, until a
    crash, and two at a time. *)
From Coq Require Import Strings.String.
From Coq Require Import List ZArith NArith Bool.
From Coq.Init Require Import Byte.
From Verif Require Import PyBase Json KeyData.
Import ListNotations.
Local Open Scope Z_scope.

(** A disk: directories, each with files and their contents.  Simplifications: directories are
    not nested, every path is a directory or a file directly in one, paths name the same
    directory only if they are the same string, and permissions are never missing. *)
Definition dir : Type := list (str * str).
Definition disk : Type := list (str * dir).

(** [os.path.exists(location)] *)
Definition has_dir (f : disk) (l : str) : bool :=
  match assoc str_eqb f l with Some _ => true | None => false end.

(** The contents of the file [os.path.join(l, n)]. *)
Definition file (f : disk) (l n : str) : option str :=
  match assoc str_eqb f l with Some d => assoc str_eqb d n | None => None end.

(** The disk with this file created or replaced. *)
Definition set_file (f : disk) (l n c : str) : disk :=
  match assoc str_eqb f l with Some d => dict_set str_eqb f l (dict_set str_eqb d n c) | None => f end.

(** The disk without this file. *)
Definition del_file (f : disk) (l n : str) : disk :=
  match assoc str_eqb f l with Some d => dict_set str_eqb f l (dict_pop str_eqb d n) | None => f end.

(** [f.write(data)] on a file opened by the program: the data goes to the beginning of the file. *)
Definition put (f : disk) (l n data : str) : disk :=
  match file f l n with Some old => set_file f l n (data ++ skipn (length data) old) | None => f end.

(** What a program does to the disk, call by call. *)
Inductive prog (A : Type) : Type :=
| Done (r : res A)
| Read (l n : str) (k : option str -> prog A)            (* open(l/n).read() *)
| IsDir (l : str) (k : bool -> prog A)                   (* os.path.exists(l) *)
| IsFile (l n : str) (k : bool -> prog A)                (* os.path.exists(l/n) *)
| OpenW (l n : str) (k : bool -> prog A)                 (* open(l/n, "w"): creates or empties *)
| Write (l n data : str) (k : prog A)                    (* f.write(data); f.close() *)
| Remove (l n : str) (k : bool -> prog A)                (* os.remove(l/n) *)
| List (l : str) (k : option (list str) -> prog A).      (* os.listdir(l) *)
Arguments Done {A}. Arguments Read {A}. Arguments IsDir {A}. Arguments IsFile {A}. Arguments OpenW {A}.
Arguments Write {A}. Arguments Remove {A}. Arguments List {A}.

Fixpoint pbind {A B} (p : prog A) (f : A -> prog B) : prog B :=
  match p with
  | Done (Ok a) => f a
  | Done (Raise e) => Done (Raise e)
  | Read l n k => Read l n (fun o => pbind (k o) f)
  | IsDir l k => IsDir l (fun b => pbind (k b) f)
  | IsFile l n k => IsFile l n (fun b => pbind (k b) f)
  | OpenW l n k => OpenW l n (fun b => pbind (k b) f)
  | Write l n d k => Write l n d (pbind k f)
  | Remove l n k => Remove l n (fun b => pbind (k b) f)
  | List l k => List l (fun b => pbind (k b) f)
  end.

Notation "'do' x <- p ; q" := (pbind p (fun x => q)) (at level 200, x pattern, p at level 100, q at level 200).
Notation "'do' ' x <- p ; q" := (pbind p (fun x => q)) (at level 200, x strict pattern, p at level 100, q at level 200).
Definition pure {A} (r : res A) : prog A := Done r.

(** ** One call *)

(** The next state of the disk and the rest of the program. *)
Definition dstep {A} (f : disk) (p : prog A) : disk * prog A :=
  match p with
  | Done r => (f, Done r)
  | Read l n k => (f, k (file f l n))
  | IsDir l k => (f, k (has_dir f l))
  | IsFile l n k => (f, k (match file f l n with Some _ => true | None => false end))
  | OpenW l n k => if has_dir f l then (set_file f l n [], k true) else (f, k false)
  | Write l n d k => (put f l n d, k)
  | Remove l n k => match file f l n with Some _ => (del_file f l n, k true) | None => (f, k false) end
  | List l k => (f, k (match assoc str_eqb f l with Some d => Some (map fst d) | None => None end))
  end.

(** ** Running alone *)
Fixpoint exec {A} (p : prog A) (f : disk) : disk * res A :=
  match p with
  | Done r => (f, r)
  | Read l n k => exec (k (file f l n)) f
  | IsDir l k => exec (k (has_dir f l)) f
  | IsFile l n k => exec (k (match file f l n with Some _ => true | None => false end)) f
  | OpenW l n k => if has_dir f l then exec (k true) (set_file f l n []) else exec (k false) f
  | Write l n d k => exec k (put f l n d)
  | Remove l n k => match file f l n with Some _ => exec (k true) (del_file f l n) | None => exec (k false) f end
  | List l k => exec (k (match assoc str_eqb f l with Some d => Some (map fst d) | None => None end)) f
  end.

(** ** Crashes *)

(** [during f p f']: a disk that the program, started on [f], can leave behind if it is killed at
    some moment.  A write may get any prefix of its data to the disk. *)
Inductive during {A} : disk -> prog A -> disk -> Prop :=
| DurNow f p : during f p f
| DurPart f l n d d1 d2 k : d = d1 ++ d2 -> during f (Write l n d k) (put f l n d1)
| DurStep f p f' p' g : dstep f p = (f', p') -> during f' p' g -> during f p g.

(** ** Two programs at the same time *)

(** [both f p q g r s]: some interleaving of the calls of [p] and [q] from [f] ends with the disk
    [g] and the outcomes [r] and [s]. *)
Inductive both {A B} : disk -> prog A -> prog B -> disk -> res A -> res B -> Prop :=
| BothDone f r s : both f (Done r) (Done s) f r s
| BothLeft f p q f' p' g r s : (forall x, p <> Done x) -> dstep f p = (f', p') -> both f' p' q g r s -> both f p q g r s
| BothRight f p q f' q' g r s : (forall x, q <> Done x) -> dstep f q = (f', q') -> both f' p q' g r s -> both f p q g r s.

(** ** util.py *)

(** [WriteFile], util.py:446-463. *)
Definition WriteFile (data l n : str) : prog unit :=
  OpenW l n (fun ok => if ok then Write l n data (Done (Ok tt)) else Done (Raise KeyczarError)).

(** [ReadFile], util.py:465-480. *)
Definition ReadFile (l n : str) : prog str :=
  Read l n (fun o => match o with Some s => Done (Ok s) | None => Done (Raise KeyczarError) end).
