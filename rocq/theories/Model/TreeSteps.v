(** PutEntry one access at a time (tree/tree.go:42-210): the same code as in Model/Tree.v,
    but every change of the store (PutNode, DelNode) and of a branch object is recorded, so
    that the states in between can be seen: by another reader, or after a store operation
    that panicked.  Allocating an object that nobody knows yet is not a change.  A node is
    complete before it is stored (tree.go:84-87, 106-109, 127-130).  A branch object's
    child is written as a whole here. *)
From Coq Require Import ZArith List Lia Bool.
From stdpp Require Import gmap list.
From Verif.Model Require Import Base Address Nibbles Tree.
Open Scope Z_scope.

(** The states passed through, and the outcome. *)
Definition steps (A : Type) : Type := list state * res A.
Definition lift {A} (r : res A) : steps A := ([], r).
Definition did (s : state) : steps state := ([s], Ok s).
Definition sbind {A B} (m : steps A) (f : A -> steps B) : steps B :=
  match m.2 with
  | Ok a => let n := f a in (m.1 ++ n.1, n.2)
  | Err e => (m.1, Err e)
  | Panic => (m.1, Panic)
  | OutOfFuel => (m.1, OutOfFuel)
  end.
Notation "'let*' p := m 'in' k" := (sbind m (fun p => k)) (at level 200, p pattern, m at level 100, k at level 200).

Definition t_put (s : state) (k : nibbles) (l : loc) : steps state := let* s' := lift (put_node s k l) in did s'.
Definition t_del (s : state) (k : nibbles) : steps state := let* s' := lift (del_node s k) in did s'.

(** tree/tree.go:141-152 *)
Fixpoint t_invalidatePath (s : state) (current : nibbles) (path : list loc) : steps state :=
  match path with
  | [] => lift (Ok s)
  | l :: path' =>
      let* (p, cs) := lift (as_branch s l) in
      let* suffix := lift (slice_from current (length p)) in
      let* cs' := lift (PutChild cs suffix zeroHash) in
      let* s1 := did (write s l (Branch p cs')) in
      t_invalidatePath s1 p path'
  end.

(** tree/tree.go:156-188 *)
Fixpoint t_prune (s : state) (current : nibbles) (path : list loc) : steps state :=
  match path with
  | [] => lift (Ok s)
  | l :: path' =>
      let* (p, cs) := lift (as_branch s l) in
      let* d := lift (index current (length p)) in
      let* c := lift (index cs (Z.to_nat d)) in
      let cs' := <[Z.to_nat d := Child (c_suffix c) (c_hash c) false]> cs in
      let* s1 := did (write s l (Branch p cs')) in
      match filter (fun c => c_exists c = true) cs' with
      | [only] =>
          if bool_decide (0 < length p)%nat then
            let* s2 := t_del s1 p in
            t_invalidatePath s2 (p ++ c_suffix only) path'
          else
            let* s2 := t_put s1 p l in
            t_invalidatePath s2 p path'
      | [] =>
          if bool_decide (length p = 0)%nat then
            let* s2 := t_put s1 p l in
            t_invalidatePath s2 p path'
          else t_prune s1 p path'
      | _ =>
          let* s2 := t_put s1 p l in
          t_invalidatePath s2 p path'
      end
  end.

(** tree/tree.go:81-137 *)
Fixpoint t_update (fuel : nat) (s : state) (nodePrefix prefix : nibbles) (value : bytes)
    (rootPath : list loc) : steps state :=
  match fuel with
  | O => lift OutOfFuel
  | S fuel' =>
      if negb (PrefixOf nodePrefix prefix) then
        (* 82-97 *)
        let '(s1, leaf) := alloc s (Leaf prefix value) in
        let* s2 := t_put s1 prefix leaf in
        let pp := CommonPrefix nodePrefix prefix in
        let* suf1 := lift (slice_from nodePrefix (length pp)) in
        let* cs1 := lift (PutChild (repeat zero_child 16) suf1 zeroHash) in
        let* suf2 := lift (slice_from prefix (length pp)) in
        let* cs2 := lift (PutChild cs1 suf2 zeroHash) in
        let '(s3, newParent) := alloc s2 (Branch pp cs2) in
        let* s4 := t_put s3 pp newParent in
        t_invalidatePath s4 pp rootPath
      else if bytes_eqb nodePrefix prefix then
        (* 99-113 *)
        match value with
        | [] => let* s1 := t_del s nodePrefix in t_prune s1 nodePrefix rootPath
        | _ => let '(s1, leaf) := alloc s (Leaf nodePrefix value) in
               let* s2 := t_put s1 nodePrefix leaf in
               t_invalidatePath s2 nodePrefix rootPath
        end
      else
        (* 115-136 *)
        match GetNode (sto s) nodePrefix with
        | None => lift Panic
        | Some l =>
            let* (p, cs) := lift (as_branch s l) in
            let* d := lift (index prefix (length p)) in
            let* c := lift (index cs (Z.to_nat d)) in
            if c_exists c then
              t_update fuel' s (p ++ c_suffix c) prefix value (l :: rootPath)
            else
              let '(s1, leaf) := alloc s (Leaf prefix value) in
              let* s2 := t_put s1 prefix leaf in
              let* suffix := lift (slice_from prefix (length p)) in
              let* cs' := lift (PutChild cs suffix zeroHash) in
              let* s3 := did (write s2 l (Branch p cs')) in
              let* s4 := t_put s3 p l in
              t_invalidatePath s4 nodePrefix rootPath
        end
  end.

(** tree/tree.go:48-64 *)
Definition t_updateEntry (s : state) (key value : bytes) : steps (state * bool) :=
  let prefix := KeyToNibbles key in
  let go := let* s' := t_update tree_fuel s [] prefix value [] in lift (Ok (s', true)) in
  match GetNode (sto s) prefix with
  | None => match value with [] => lift (Ok (s, false)) | _ => go end
  | Some l => match heap s !! l with
              | Some (Leaf _ v) => if bytes_eqb v value then lift (Ok (s, false)) else go
              | _ => go
              end
  end.

(** tree/tree.go:197 *)
Fixpoint t_for_each {S A} (step : S -> A -> steps S) (l : list A) (s : S) : steps S :=
  match l with
  | [] => lift (Ok s)
  | a :: l' => let* s' := step s a in t_for_each step l' s'
  end.

Section WithHash.
  Variable H : bytes -> bytes.

  (** tree/tree.go:197-204 *)
  Definition t_hash_child (rec : state -> nibbles -> steps (state * bytes)) (l : loc) (prefix : nibbles)
      (s : state) (i : nat) : steps state :=
    let* (p, cs) := lift (as_branch s l) in
    let* c := lift (index cs i) in
    if negb (c_exists c) then lift (Ok s)
    else if bytes_eqb (c_hash c) zeroHash then
      let* (s', h) := rec s (prefix ++ c_suffix c) in
      let* (p', cs') := lift (as_branch s' l) in
      let* c' := lift (index cs' i) in
      did (write s' l (Branch p' (<[i := Child (c_suffix c') h (c_exists c')]> cs')))
    else lift (Ok s).

  (** tree/tree.go:191-210 *)
  Fixpoint t_updateHashes (fuel : nat) (s : state) (prefix : nibbles) : steps (state * bytes) :=
    match fuel with
    | O => lift OutOfFuel
    | S fuel' =>
        match GetNode (sto s) prefix with
        | None => lift Panic
        | Some l =>
            match heap s !! l with
            | None => lift Panic
            | Some (Leaf p v) => let* h := lift (leaf_hash H p v) in lift (Ok (s, h))
            | Some (Branch _ _) =>
                let* s1 := t_for_each (t_hash_child (t_updateHashes fuel') l prefix) (seq 0 16) s in
                let* (p, cs) := lift (as_branch s1 l) in
                let* s2 := t_put s1 p l in
                let* h := lift (branch_hash H p cs) in
                lift (Ok (s2, h))
            end
        end
    end.

  (** tree/tree.go:42-46 *)
  Definition t_PutEntry (s : state) (key value : bytes) : steps (state * bool) :=
    let* (s1, changed) := t_updateEntry s key value in
    let* (s2, _) := t_updateHashes tree_fuel s1 [] in
    lift (Ok (s2, changed)).
End WithHash.
