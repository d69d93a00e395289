(** * Backends: plug-in readers and writers, util.py:869-896, readers.py:30-44, writers.py:26-39. *)
From Coq Require Import Strings.String.
From Coq Require Import List Bool.
From Coq.Init Require Import Byte.
From Verif Require Import PyBase KeyData Keyczar.
Import ListNotations.

(** A class derived from Reader or Writer: whether it is so directly (only such classes are listed
    by [__subclasses__()]), and what its class method CreateReader or CreateWriter does with a
    location: it returns an object (true), nothing (false), or raises an exception (None). *)
Record backend := MkBackend { b_name : str; b_direct : bool; b_create : str -> option bool }.

(** A Python file: it defines these classes when it is executed, or fails.  Simplified: what a file
    that fails defines before it does so is not kept. *)
Inductive pyfile := Defines (readers writers : list backend) | Fails.

(** What is at a path: a directory with its files, in the order [os.listdir] gives, or a file. *)
Inductive entry := Dir (files : list (str * pyfile)) | NotDir.
Definition world := str -> option entry.

(** A process: [sys.path], the names in [sys.modules], and the direct subclasses of Reader and of
    Writer in the order in which they were defined. *)
Record proc := MkProc { p_path : list str; p_modules : list str; p_readers : list backend; p_writers : list backend }.

(** The exceptions that come from importing, and from asking a class. *)
Inductive failure :=
| NotADirectory (* os.listdir *)
| EmptyName     (* __import__('') *)
| NoModule      (* ModuleNotFoundError *)
| Broken        (* the file raised an exception *)
| AskedRaised.  (* CreateReader or CreateWriter of the class raised one *)
Inductive result (A : Type) := Got (a : A) | Refused | Failed (f : failure).
Arguments Got {A} a. Arguments Refused {A}. Arguments Failed {A} f.

Definition dot_py : str := bs ".py".
Definition in_list (l : list str) (s : str) : bool := existsb (str_eqb s) l.

(** [fname.endswith(".py")] and [fname[:-3]], util.py:878-879. *)
Definition ends_py (f : str) : bool := str_eqb (skipn (length f - 3) f) dot_py.
Definition stem (f : str) : str := firstn (length f - 3) f.

(** The search along [sys.path]: the first directory with a file of this name.  Simplified:
    packages, compiled and built-in modules are not considered. *)
Fixpoint find_module (w : world) (path : list str) (name : str) : option pyfile :=
  match path with
  | [] => None
  | d :: path' =>
      match w d with
      | Some (Dir files) =>
          match assoc str_eqb files (name ++ dot_py) with
          | Some m => Some m
          | None => find_module w path' name
          end
      | _ => find_module w path' name
      end
  end.

(** [__import__(name)]: nothing for a name that is in [sys.modules], otherwise the file is found and
    executed.  Simplified: a name with a dot in it, which asks for a package, is not found. *)
Definition has_dot (n : str) : bool := existsb (beqb x2e) n.
Definition import_module (w : world) (p : proc) (n : str) : proc * result unit :=
  match n with
  | [] => (p, Failed EmptyName)
  | _ =>
    if in_list (p_modules p) n then (p, Got tt)
    else if has_dot n then (p, Failed NoModule)
    else match find_module w (p_path p) n with
    | None => (p, Failed NoModule)
    | Some Fails => (p, Failed Broken)
    | Some (Defines rs ws) =>
        (MkProc (p_path p) (p_modules p ++ [n]) (p_readers p ++ filter b_direct rs) (p_writers p ++ filter b_direct ws), Got tt)
    end
  end.
Fixpoint import_modules (w : world) (p : proc) (ns : list str) : proc * result unit :=
  match ns with
  | [] => (p, Got tt)
  | n :: ns' =>
      let (p', r) := import_module w p n in
      match r with Got _ => import_modules w p' ns' | _ => (p', r) end
  end.

(** [ImportAll], util.py:869-882. *)
Definition plugin_names (files : list (str * pyfile)) : list str := map stem (filter ends_py (map fst files)).
Definition ImportAll (w : world) (p : proc) (d : str) : proc * result unit :=
  match w d with
  | None => (p, Got tt)
  | Some NotDir => (p, Failed NotADirectory)
  | Some (Dir files) =>
      let p' := if in_list (p_path p) d then p
                else MkProc (p_path p ++ [d]) (p_modules p) (p_readers p) (p_writers p) in
      import_modules w p' (plugin_names files)
  end.

(** [xtra_paths.split(os.pathsep)], util.py:894. *)
Fixpoint split_colon (s : str) : list str :=
  match s with
  | [] => [[]]
  | c :: s' =>
      if beqb c x3a then [] :: split_colon s'
      else match split_colon s' with [] => [[c]] | a :: l => (c :: a) :: l end
  end.

(** [ImportBackends], util.py:884-896: [own] is the directory [backends] beside util.py, [env] the
    value of KEYCZAR_BACKEND_PATHS, empty if it is not set. *)
Definition backend_dirs (own env : str) : list str :=
  own :: match env with [] => [] | _ => split_colon env end.
Fixpoint import_dirs (w : world) (p : proc) (ds : list str) : proc * result unit :=
  match ds with
  | [] => (p, Got tt)
  | d :: ds' =>
      let (p', r) := ImportAll w p d in
      match r with Got _ => import_dirs w p' ds' | _ => (p', r) end
  end.
Definition ImportBackends (w : world) (own env : str) (p : proc) : proc * result unit :=
  import_dirs w p (backend_dirs own env).

(** The loop over the classes, readers.py:39-44 and writers.py:34-39. *)
Fixpoint choose (l : list backend) (loc : str) : result backend :=
  match l with
  | [] => Refused
  | b :: l' =>
      match b_create b loc with
      | None => Failed AskedRaised
      | Some true => Got b
      | Some false => choose l' loc
      end
  end.

(** [readers.CreateReader] and [writers.CreateWriter]; [Refused] is KeyczarError. *)
Definition create (side : proc -> list backend) (w : world) (own env : str) (p : proc) (loc : str) : proc * result backend :=
  let (p', r) := ImportBackends w own env p in
  match r with
  | Got _ => (p', choose (side p') loc)
  | Refused => (p', Refused)
  | Failed f => (p', Failed f)
  end.

(** The classes of keyczar itself, readers.py:95-223 and writers.py:102-150, in the order of their
    definitions; FileReader and FileWriter accept what [os.path.exists] finds. *)
Definition file_backend (exists_path : str -> bool) (n : string) : backend := MkBackend (bs n) true (fun l => Some (exists_path l)).
Definition never (n : string) : backend := MkBackend (bs n) true (fun _ => Some false).
Definition own_readers (exists_path : str -> bool) : list backend :=
  [file_backend exists_path "FileReader"; never "StaticKeyReader"; never "EncryptedReader"; never "MockReader"].
Definition own_writers (exists_path : str -> bool) : list backend := [file_backend exists_path "FileWriter"].

(** A process that has imported keyczar, with any [sys.path] and any other modules. *)
Definition started (exists_path : str -> bool) (path modules : list str) : proc :=
  MkProc path modules (own_readers exists_path) (own_writers exists_path).

(** The reader that [X.Read(location)] uses, keyczar.py:106, 139, 314, 384, 505 and 581; the
    unversioned classes make a FileReader without asking anyone, keyczar.py:456 and 648. *)
Definition class_reader (c : kclass) (exists_path : str -> bool) (w : world) (own env : str) (p : proc) (loc : str) : proc * result backend :=
  match c with
  | UnversionedVerifier | UnversionedSigner => (p, Got (file_backend exists_path "FileReader"))
  | _ => create p_readers w own env p loc
  end.
