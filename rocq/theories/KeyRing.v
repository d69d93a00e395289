(** * KeyRing: a small specification of key sets, used to state C26-C31 and C47.

    It knows nothing of version objects, dictionaries, files or JSON: a key ring maps version
    numbers to a status and a key. *)
From Coq Require Import List ZArith Bool.
From Verif Require Import KeyInfo Keys.
Import ListNotations.
Local Open Scope Z_scope.

Definition ring : Type := Z -> option (status * key).

Definition empty_ring : ring := fun _ => None.

(** A ring entry after the primary version lost its rank. *)
Definition unprimary (x : option (status * key)) : option (status * key) :=
  match x with
  | Some (PRIMARY, k) => Some (ACTIVE, k)
  | _ => x
  end.

(** Add key [k] as version [n] with status [s]. *)
Definition ring_add (r : ring) (n : Z) (s : status) (k : key) : ring := fun m =>
  if m =? n then Some (s, k)
  else match s with PRIMARY => unprimary (r m) | _ => r m end.

(** INACTIVE -> ACTIVE -> PRIMARY; None: refused. *)
Definition ring_promote (r : ring) (n : Z) : option ring :=
  match r n with
  | Some (INACTIVE, k) => Some (fun m => if m =? n then Some (ACTIVE, k) else r m)
  | Some (ACTIVE, k) => Some (fun m => if m =? n then Some (PRIMARY, k) else unprimary (r m))
  | Some (PRIMARY, _) | None => None
  end.

(** PRIMARY -> ACTIVE -> INACTIVE. *)
Definition ring_demote (r : ring) (n : Z) : option ring :=
  match r n with
  | Some (PRIMARY, k) => Some (fun m => if m =? n then Some (ACTIVE, k) else r m)
  | Some (ACTIVE, k) => Some (fun m => if m =? n then Some (INACTIVE, k) else r m)
  | Some (INACTIVE, _) | None => None
  end.

(** An INACTIVE version is removed. *)
Definition ring_revoke (r : ring) (n : Z) : option ring :=
  match r n with
  | Some (INACTIVE, _) => Some (fun m => if m =? n then None else r m)
  | _ => None
  end.
