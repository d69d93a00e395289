(** * Fault: programs whose system calls may fail. *)
From Coq Require Import List ZArith NArith Bool.
From Coq.Init Require Import Byte.
From Verif Require Import PyBase Disk.
Import ListNotations.

(** [faulty ex f p g r]: from the disk [f], with any of its calls failing, the program [p] can end
    with the disk [g] and the outcome [r].

    - A failing [open(...).read()], [open(..., "w")], [os.remove] or [os.listdir] raises what a
      missing file or directory makes it raise: [ReadFile] and [WriteFile] (util.py:446-480) turn
      every IOError into a KeyczarError, and the others are not caught.
    - A failing [f.write(...)] or [f.close()] has put any prefix of the data on the disk, and
      [WriteFile] raises KeyczarError (util.py:457-462).  There is no other writer.
    - With [ex], [os.path.exists] may fail too: it then answers False. *)
Inductive faulty {A} (ex : bool) : disk -> prog A -> disk -> res A -> Prop :=
| FaultDone f r : faulty ex f (Done r) f r
| FaultNone f p f' p' g r : (forall x, p <> Done x) -> dstep f p = (f', p') -> faulty ex f' p' g r -> faulty ex f p g r
| FaultRead f l n k g r : faulty ex f (k None) g r -> faulty ex f (Read l n k) g r
| FaultOpen f l n k g r : faulty ex f (k false) g r -> faulty ex f (OpenW l n k) g r
| FaultWrite f l n d d1 d2 k : d = d1 ++ d2 -> faulty ex f (Write l n d k) (put f l n d1) (Raise KeyczarError)
| FaultRemove f l n k g r : faulty ex f (k false) g r -> faulty ex f (Remove l n k) g r
| FaultList f l k g r : faulty ex f (k None) g r -> faulty ex f (List l k) g r
| FaultIsDir f l k g r : ex = true -> faulty ex f (k false) g r -> faulty ex f (IsDir l k) g r
| FaultIsFile f l n k g r : ex = true -> faulty ex f (k false) g r -> faulty ex f (IsFile l n k) g r.
