(** Flush one statement at a time (tree/store_overlay.go:31-41). *)
From Coq Require Import ZArith List.
From stdpp Require Import gmap list.
From Verif.Model Require Import Base Nibbles Tree.
Open Scope Z_scope.

(** The two statements of the loop body: the call on [o.Lower]
    (store_overlay.go:34-38) and the [delete] (store_overlay.go:39). *)
Inductive flush_stmt :=
| WriteDown (k : nibbles) (n : option loc)
| DeleteDiff (k : nibbles).

(** store_overlay.go:34-39: what one statement does to the overlay.  Deleting
    from a nil map does nothing. *)
Definition flush_stmt_run (a : flush_stmt) (s : store) : res store :=
  match s, a with
  | OverlayStore lower diffs, WriteDown k None =>
      let? lower' := DelNode lower k in Ok (OverlayStore lower' diffs)
  | OverlayStore lower diffs, WriteDown k (Some n) =>
      let? lower' := PutNode lower k n in Ok (OverlayStore lower' diffs)
  | OverlayStore lower diffs, DeleteDiff k => Ok (OverlayStore lower (delete k <$> diffs))
  | MemStore _, _ => Panic
  end.

(** store_overlay.go:32-40: the statements executed when the entries are
    visited in the given order. *)
Definition flush_stmts (order : list (nibbles * option loc)) : list flush_stmt :=
  concat (map (fun kv => [WriteDown kv.1 kv.2; DeleteDiff kv.1]) order).

Fixpoint flush_stmts_run (l : list flush_stmt) (s : store) : res store :=
  match l with
  | [] => Ok s
  | a :: l' => let? s' := flush_stmt_run a s in flush_stmts_run l' s'
  end.

(** store_overlay.go:31-41: a Flush that gets through the first [n] statements
    and no further (the lower store's call panicked, or another reader looks at
    the store in between). *)
Definition FlushUpTo (n : nat) (order : list (nibbles * option loc)) (s : store) : res store :=
  flush_stmts_run (firstn n (flush_stmts order)) s.
