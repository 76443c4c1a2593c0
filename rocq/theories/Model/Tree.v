(** Model of package tree: node.go, store.go (interface; the nibble functions
    are those of Model/Nibbles.v, tree/store.go:10-87 being a verbatim copy of
    wire/nibbles.go), store_mem.go, store_overlay.go, tree.go.

    Nodes are Go pointers: the model has an explicit heap from locations to
    node objects, and stores map nibble paths to locations, so that in-place
    mutation and sharing between stores are visible.  Nibble slices are modelled
    as immutable lists (Model/TreeSlices.v has them as slices with shared arrays,
    and Props/SliceProps.v proves that the two models agree).  The hash is a parameter [H]
    (blake2b.Sum256 in the code, see Model/Blake2b.v for a concrete instance). *)
From Coq Require Import ZArith List Lia Bool.
From stdpp Require Import gmap list.
From Verif.Model Require Import Base Address Nibbles.
Open Scope Z_scope.

(** tree/node.go:59-63 *)
Record child := Child { c_suffix : nibbles; c_hash : bytes; c_exists : bool }.
(** tree/node.go:15-18, 66-69.  A Branch has 16 children. *)
Inductive node :=
| Branch (prefix : nibbles) (children : list child)
| Leaf (prefix : nibbles) (value : bytes).
Definition node_prefix (n : node) : nibbles :=
  match n with Branch p _ => p | Leaf p _ => p end.

(** tree/tree.go:23 *)
Definition zeroHash : bytes := repeat 0 32.
(** Zero value of Child; [&Branch{Prefix: p}]. *)
Definition zero_child : child := Child [] zeroHash false.
Definition new_branch (p : nibbles) : node := Branch p (repeat zero_child 16).

(** tree/node.go:21-27; suffix[0] panics on an empty suffix, Children[..] beyond 15. *)
Definition PutChild (cs : list child) (suffix : nibbles) (hash : bytes) : res (list child) :=
  match suffix with
  | [] => Panic
  | d :: _ => if bool_decide (Z.to_nat d < length cs)%nat
              then Ok (<[Z.to_nat d := Child suffix hash true]> cs) else Panic
  end.

(** [s[n:]] panics when n > len(s). *)
Definition slice_from (l : nibbles) (n : nat) : res nibbles :=
  if bool_decide (n <= length l)%nat then Ok (drop n l) else Panic.

(** tree/node.go:39-44 *)
Definition childCount (cs : list child) : Z := w8 (zlen (filter (fun c => c_exists c = true) cs)).
(** tree/node.go:46-53 *)
Fixpoint children_marshal (cs : list child) : res bytes :=
  match cs with
  | [] => Ok []
  | c :: r =>
      if c_exists c then
        let? hx := HexBytes (c_suffix c) in
        let? rest := children_marshal r in
        Ok ([w8 (zlen (c_suffix c))] ++ hx ++ c_hash c ++ rest)
      else children_marshal r
  end.
(** tree/node.go:37-53: the bytes written to the hasher for a branch. *)
Definition branch_marshal (p : nibbles) (cs : list child) : res bytes :=
  let? hx := HexBytes p in
  let? rest := children_marshal cs in
  Ok ([0x00; w8 (zlen p)] ++ hx ++ [childCount cs] ++ rest).
(** tree/node.go:76-80 *)
Definition leaf_marshal (p : nibbles) (v : bytes) : res bytes :=
  let? hx := HexBytes p in Ok ([0xFF; 40] ++ hx ++ v).

(** ** Stores *)
Definition loc := nat.
Inductive store :=
| MemStore (nodes : gmap nibbles loc)                                   (* store_mem.go:4-6 *)
| OverlayStore (lower : store) (diffs : option (gmap nibbles (option loc))).
   (* store_overlay.go:4-7; [None] is the nil map, [Some None] an entry holding nil *)

(** store_mem.go:18-20, store_overlay.go:10-18 *)
Fixpoint GetNode (s : store) (k : nibbles) : option loc :=
  match s with
  | MemStore m => m !! k
  | OverlayStore lower diffs =>
      match diffs ≫= (fun d => d !! k) with
      | Some override => override
      | None => GetNode lower k
      end
  end.

(** store_mem.go:23-25, store_overlay.go:21-23: writing to a nil map panics. *)
Definition PutNode (s : store) (k : nibbles) (n : loc) : res store :=
  match s with
  | MemStore m => Ok (MemStore (<[k := n]> m))
  | OverlayStore lower (Some d) => Ok (OverlayStore lower (Some (<[k := Some n]> d)))
  | OverlayStore lower None => Panic
  end.

(** store_mem.go:28-30, store_overlay.go:26-28 *)
Definition DelNode (s : store) (k : nibbles) : res store :=
  match s with
  | MemStore m => Ok (MemStore (delete k m))
  | OverlayStore lower (Some d) => Ok (OverlayStore lower (Some (<[k := None]> d)))
  | OverlayStore lower None => Panic
  end.

(** store_overlay.go:31-41.  Go iterates over the map in an unspecified order
    (and deleting the current key while iterating is allowed): [order] lists
    the entries in the order visited; callers quantify over all permutations. *)
Fixpoint flush_entries (order : list (nibbles * option loc)) (lower : store) : res store :=
  match order with
  | [] => Ok lower
  | (k, None) :: rest => let? lower' := DelNode lower k in flush_entries rest lower'
  | (k, Some n) :: rest => let? lower' := PutNode lower k n in flush_entries rest lower'
  end.
Definition Flush (order : list (nibbles * option loc)) (s : store) : res store :=
  match s with
  | OverlayStore lower diffs =>
      let? lower' := flush_entries order lower in
      Ok (OverlayStore lower'
            (match diffs with
             | None => None
             | Some d => Some (foldl (fun d kv => delete kv.1 d) d order)
             end))
  | MemStore _ => Panic (* not an OverlayStore *)
  end.

(** ** The tree *)
Record state := State { heap : gmap loc node; next : loc; sto : store }.

(** store_mem.go:9-15 together with [PMTree{Store: NewMemStore()}]. *)
Definition new_tree : state :=
  State {[ 0%nat := new_branch [] ]} 1%nat (MemStore {[ [] := 0%nat ]}).

(** Allocate a node object ([&Leaf{..}], [&Branch{..}]). *)
Definition alloc (s : state) (n : node) : state * loc :=
  (State (<[next s := n]> (heap s)) (S (next s)) (sto s), next s).
(** Overwrite a node object in place. *)
Definition write (s : state) (l : loc) (n : node) : state :=
  State (<[l := n]> (heap s)) (next s) (sto s).
Definition put_node (s : state) (k : nibbles) (l : loc) : res state :=
  let? st := PutNode (sto s) k l in Ok (State (heap s) (next s) st).
Definition del_node (s : state) (k : nibbles) : res state :=
  let? st := DelNode (sto s) k in Ok (State (heap s) (next s) st).

(** The type assertion [x.( *Branch)] on a pointer held in [l]. *)
Definition as_branch (s : state) (l : loc) : res (nibbles * list child) :=
  match heap s !! l with
  | Some (Branch p cs) => Ok (p, cs)
  | _ => Panic
  end.

(** tree/tree.go:25-35; [None] is a nil slice. *)
Definition GetEntry (s : state) (key : bytes) : res (option bytes) :=
  match GetNode (sto s) (KeyToNibbles key) with
  | None => Ok None
  | Some l => match heap s !! l with
              | Some (Leaf _ v) => Ok (Some v)
              | _ => Panic
              end
  end.

(** tree/tree.go:141-152.  [path] is kept with the deepest node first (the code
    pops it from the end of a slice). *)
Fixpoint invalidatePath (s : state) (current : nibbles) (path : list loc) : res state :=
  match path with
  | [] => Ok s
  | l :: path' =>
      let? (p, cs) := as_branch s l in
      let? suffix := slice_from current (length p) in
      let? cs' := PutChild cs suffix zeroHash in
      invalidatePath (write s l (Branch p cs')) p path'
  end.

(** tree/tree.go:156-188 *)
Fixpoint prune (s : state) (current : nibbles) (path : list loc) : res state :=
  match path with
  | [] => Ok s
  | l :: path' =>
      let? (p, cs) := as_branch s l in
      let? d := index current (length p) in
      let? c := index cs (Z.to_nat d) in
      let cs' := <[Z.to_nat d := Child (c_suffix c) (c_hash c) false]> cs in
      let s1 := write s l (Branch p cs') in
      match filter (fun c => c_exists c = true) cs' with
      | [only] =>
          if bool_decide (0 < length p)%nat then
            let? s2 := del_node s1 p in
            invalidatePath s2 (p ++ c_suffix only) path'
          else
            let? s2 := put_node s1 p l in
            invalidatePath s2 p path'
      | [] =>
          if bool_decide (length p = 0)%nat then
            let? s2 := put_node s1 p l in
            invalidatePath s2 p path'
          else prune s1 p path'
      | _ =>
          let? s2 := put_node s1 p l in
          invalidatePath s2 p path'
      end
  end.

(** tree/tree.go:81-137.  Recursion descends one branch per call; [fuel] bounds
    the depth (theorems show that it is never exhausted). *)
Fixpoint update (fuel : nat) (s : state) (nodePrefix prefix : nibbles) (value : bytes)
    (rootPath : list loc) : res state :=
  match fuel with
  | O => OutOfFuel
  | S fuel' =>
      if negb (PrefixOf nodePrefix prefix) then
        (* 82-97 *)
        let '(s1, leaf) := alloc s (Leaf prefix value) in
        let? s2 := put_node s1 prefix leaf in
        let pp := CommonPrefix nodePrefix prefix in
        let? suf1 := slice_from nodePrefix (length pp) in
        let? cs1 := PutChild (repeat zero_child 16) suf1 zeroHash in
        let? suf2 := slice_from prefix (length pp) in
        let? cs2 := PutChild cs1 suf2 zeroHash in
        let '(s3, newParent) := alloc s2 (Branch pp cs2) in
        let? s4 := put_node s3 pp newParent in
        invalidatePath s4 pp rootPath
      else if bytes_eqb nodePrefix prefix then
        (* 99-113 *)
        match value with
        | [] => let? s1 := del_node s nodePrefix in prune s1 nodePrefix rootPath
        | _ => let '(s1, leaf) := alloc s (Leaf nodePrefix value) in
               let? s2 := put_node s1 nodePrefix leaf in
               invalidatePath s2 nodePrefix rootPath
        end
      else
        (* 115-136 *)
        match GetNode (sto s) nodePrefix with
        | None => Panic
        | Some l =>
            let? (p, cs) := as_branch s l in
            let? d := index prefix (length p) in
            let? c := index cs (Z.to_nat d) in
            if c_exists c then
              update fuel' s (p ++ c_suffix c) prefix value (l :: rootPath)
            else
              let '(s1, leaf) := alloc s (Leaf prefix value) in
              let? s2 := put_node s1 prefix leaf in
              let? suffix := slice_from prefix (length p) in
              let? cs' := PutChild cs suffix zeroHash in
              let s3 := write s2 l (Branch p cs') in
              let? s4 := put_node s3 p l in
              invalidatePath s4 nodePrefix rootPath
        end
  end.

(** Depth of recursion allowed: a path has at most 41 nodes. *)
Definition tree_fuel : nat := 50.

(** tree/tree.go:48-64 *)
Definition updateEntry (s : state) (key value : bytes) : res (state * bool) :=
  let prefix := KeyToNibbles key in
  let go := let? s' := update tree_fuel s [] prefix value [] in Ok (s', true) in
  match GetNode (sto s) prefix with
  | None => match value with [] => Ok (s, false) | _ => go end
  | Some l => match heap s !! l with
              | Some (Leaf _ v) => if bytes_eqb v value then Ok (s, false) else go
              | _ => go
              end
  end.

(** Run a state-transforming step for each index in turn. *)
Fixpoint for_each {S A} (step : S -> A -> res S) (l : list A) (s : S) : res S :=
  match l with
  | [] => Ok s
  | a :: l' => let? s' := step s a in for_each step l' s'
  end.

Section WithHash.
  (** The hash function. *)
  Variable H : bytes -> bytes.

  (** tree/node.go:35-56, 83-88 *)
  Definition branch_hash (p : nibbles) (cs : list child) : res bytes :=
    let? b := branch_marshal p cs in Ok (H b).
  Definition leaf_hash (p : nibbles) (v : bytes) : res bytes :=
    let? b := leaf_marshal p v in Ok (H b).

  (** tree/tree.go:67-69 *)
  Definition Hash (s : state) : res bytes :=
    match GetNode (sto s) [] with
    | None => Panic
    | Some l => let? (p, cs) := as_branch s l in branch_hash p cs
    end.

  (** tree/tree.go:197-204: one iteration of the loop over the children of the
      branch object [l]. *)
  Definition hash_child (rec : state -> nibbles -> res (state * bytes)) (l : loc) (prefix : nibbles)
      (s : state) (i : nat) : res state :=
    let? (p, cs) := as_branch s l in
    let? c := index cs i in
    if negb (c_exists c) then Ok s
    else if bytes_eqb (c_hash c) zeroHash then
      let? (s', h) := rec s (prefix ++ c_suffix c) in
      let? (p', cs') := as_branch s' l in
      let? c' := index cs' i in
      Ok (write s' l (Branch p' (<[i := Child (c_suffix c') h (c_exists c')]> cs')))
    else Ok s.

  (** tree/tree.go:191-210 *)
  Fixpoint updateHashes (fuel : nat) (s : state) (prefix : nibbles) : res (state * bytes) :=
    match fuel with
    | O => OutOfFuel
    | S fuel' =>
        match GetNode (sto s) prefix with
        | None => Panic
        | Some l =>
            match heap s !! l with
            | None => Panic
            | Some (Leaf p v) => let? h := leaf_hash p v in Ok (s, h)
            | Some (Branch _ _) =>
                let? s1 := for_each (hash_child (updateHashes fuel') l prefix) (seq 0 16) s in
                let? (p, cs) := as_branch s1 l in
                let? s2 := put_node s1 p l in
                let? h := branch_hash p cs in
                Ok (s2, h)
            end
        end
    end.

  (** tree/tree.go:42-46 *)
  Definition PutEntry (s : state) (key value : bytes) : res (state * bool) :=
    let? (s1, changed) := updateEntry s key value in
    let? (s2, _) := updateHashes tree_fuel s1 [] in
    Ok (s2, changed).
End WithHash.
