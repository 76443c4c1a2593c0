(** A second model of package tree (tree.go, node.go), in which the nibble
    strings and the entry values are Go slices: windows (array, offset, length, capacity) into
    backing arrays that several slices share.  [append] writes into the backing
    array when the capacity suffices, and otherwise copies into a new array whose
    spare capacity is chosen by an arbitrary policy [grow] (the Go specification
    leaves it open).  Model/Tree.v has the same functions on immutable lists;
    Props/SliceProps.v proves that the two agree.

    Simplification: stores are those of Model/Tree.v, keyed by the bytes of the
    path, as the code converts each slice to a string (a copy) before using it
    as a map key (tree/store_mem.go:19, 24, 29; tree/store_overlay.go:12, 22, 27). *)
From Coq Require Import ZArith List Lia Bool.
From stdpp Require Import gmap list.
From Verif.Model Require Import Base Address Nibbles Tree.
Open Scope Z_scope.

(** ** Slices (Go specification, "Slice types", "Slice expressions",
    "Appending to and copying slices"; not part of /repo) *)
Record slice := Sl { s_arr : nat; s_off : nat; s_len : nat; s_cap : nat }.
(** All backing arrays ever allocated; array 0 is empty and belongs to nil. *)
Notation arrays := (list (list Z)).
Definition array (A : arrays) (a : nat) : list Z := default [] (A !! a).
(** The elements of a slice. *)
Definition content (A : arrays) (x : slice) : nibbles := take (s_len x) (drop (s_off x) (array A (s_arr x))).
(** The nil slice. *)
Definition nil_slice : slice := Sl 0 0 0 0.
(** [x[n:]]: panics when n > len(x). *)
Definition from (x : slice) (n : nat) : res slice :=
  if bool_decide (n <= s_len x)%nat then Ok (Sl (s_arr x) (s_off x + n) (s_len x - n) (s_cap x - n)) else Panic.
(** [x[:n]]: keeps the capacity. *)
Definition upto (x : slice) (n : nat) : slice := Sl (s_arr x) (s_off x) n (s_cap x).
(** [x[:len(x):len(x)]]: capacity reduced to the length. *)
Definition clip (x : slice) : slice := Sl (s_arr x) (s_off x) (s_len x) (s_len x).
(** A new array holding [ys] and [extra] further elements. *)
Definition fresh_slice (A : arrays) (ys : list Z) (extra : nat) : arrays * slice :=
  (A ++ [ys ++ repeat 0 extra], Sl (length A) 0 (length ys) (length ys + extra)).
(** Copy [ys] into array [a] from position [i]. *)
Definition overwrite (A : arrays) (a i : nat) (ys : list Z) : arrays :=
  <[a := take i (array A a) ++ ys ++ drop (i + length ys) (array A a)]> A.
Definition grow_policy := arrays -> slice -> nat -> nat.
(** [append(x, ys...)]; [ys] are the elements read before anything is written. *)
Definition append (grow : grow_policy) (A : arrays) (x : slice) (ys : list Z) : arrays * slice :=
  let n := (s_len x + length ys)%nat in
  if bool_decide (n <= s_cap x)%nat
  then (overwrite A (s_arr x) (s_off x + s_len x) ys, Sl (s_arr x) (s_off x) n (s_cap x))
  else fresh_slice A (content A x ++ ys) (grow A x n).

(** ** Nodes *)
(** tree/node.go:59-63 *)
Record schild := SChild { k_suffix : slice; k_hash : bytes; k_exists : bool }.
(** tree/node.go:15-18, 66-69 *)
Inductive snode :=
| SBranch (prefix : slice) (children : list schild)
| SLeaf (prefix value : slice).
(** Zero value of Child. *)
Definition zero_schild : schild := SChild nil_slice zeroHash false.

(** What a child, a node holds at the moment, as lists. *)
Definition child_now (A : arrays) (c : schild) : child := Child (content A (k_suffix c)) (k_hash c) (k_exists c).
Definition node_now (A : arrays) (n : snode) : node :=
  match n with
  | SBranch p cs => Branch (content A p) (map (child_now A) cs)
  | SLeaf p v => Leaf (content A p) (content A v)
  end.

(** tree/node.go:21-27 *)
Definition sPutChild (A : arrays) (cs : list schild) (suffix : slice) (hash : bytes) : res (list schild) :=
  match content A suffix with
  | [] => Panic
  | d :: _ => if bool_decide (Z.to_nat d < length cs)%nat
              then Ok (<[Z.to_nat d := SChild suffix hash true]> cs) else Panic
  end.

(** tree/store.go:63-75: [common] is nil until a first nibble agrees, then nbs[:i+1]. *)
Definition sCommonPrefix (A : arrays) (x y : slice) : slice :=
  match CommonPrefix (content A x) (content A y) with
  | [] => nil_slice
  | pp => upto x (length pp)
  end.

(** ** The tree *)
Record sstate := SState { arrs : arrays; sheap : gmap loc snode; snext : loc; ssto : store }.

(** tree/store_mem.go:9-15: the root is [&Branch{}], with a nil prefix. *)
Definition snew_tree : sstate :=
  SState [[]] {[ 0%nat := SBranch nil_slice (repeat zero_schild 16) ]} 1%nat (MemStore {[ [] := 0%nat ]}).

Definition salloc (S : sstate) (n : snode) : sstate * loc :=
  (SState (arrs S) (<[snext S := n]> (sheap S)) (Datatypes.S (snext S)) (ssto S), snext S).
Definition swrite (S : sstate) (l : loc) (n : snode) : sstate :=
  SState (arrs S) (<[l := n]> (sheap S)) (snext S) (ssto S).
Definition sput_node (S : sstate) (k : slice) (l : loc) : res sstate :=
  let? st := PutNode (ssto S) (content (arrs S) k) l in Ok (SState (arrs S) (sheap S) (snext S) st).
Definition sdel_node (S : sstate) (k : slice) : res sstate :=
  let? st := DelNode (ssto S) (content (arrs S) k) in Ok (SState (arrs S) (sheap S) (snext S) st).
Definition set_arrs (S : sstate) (A : arrays) : sstate := SState A (sheap S) (snext S) (ssto S).
(** The type assertion [x.( *Branch)]. *)
Definition sas_branch (S : sstate) (l : loc) : res (slice * list schild) :=
  match sheap S !! l with
  | Some (SBranch p cs) => Ok (p, cs)
  | _ => Panic
  end.

(** tree/store.go:17-24: a new array of 40 bytes. *)
Definition sKeyToNibbles (S : sstate) (key : bytes) : sstate * slice :=
  let '(A, x) := fresh_slice (arrs S) (KeyToNibbles key) 0 in (set_arrs S A, x).

(** tree/tree.go:25-35: returns the slice that the leaf holds ([None] is nil). *)
Definition sGetEntry (S : sstate) (key : bytes) : res (option slice) :=
  let '(S1, x) := sKeyToNibbles S key in
  match GetNode (ssto S1) (content (arrs S1) x) with
  | None => Ok None
  | Some l => match sheap S1 !! l with
              | Some (SLeaf _ v) => Ok (Some v)
              | _ => Panic
              end
  end.

(** tree/tree.go:141-152 *)
Fixpoint sinvalidatePath (S : sstate) (current : slice) (path : list loc) : res sstate :=
  match path with
  | [] => Ok S
  | l :: path' =>
      let? (p, cs) := sas_branch S l in
      let? suffix := from current (s_len p) in
      let? cs' := sPutChild (arrs S) cs suffix zeroHash in
      sinvalidatePath (swrite S l (SBranch p cs')) p path'
  end.

Section WithGrow.
  (** The capacities append chooses. *)
  Variable grow : grow_policy.

  (** tree/tree.go:156-188.  Line 178 appends to [node.Prefix] itself. *)
  Fixpoint sprune (S : sstate) (current : slice) (path : list loc) : res sstate :=
    match path with
    | [] => Ok S
    | l :: path' =>
        let? (p, cs) := sas_branch S l in
        let? d := index (content (arrs S) current) (s_len p) in
        let? c := index cs (Z.to_nat d) in
        let cs' := <[Z.to_nat d := SChild (k_suffix c) (k_hash c) false]> cs in
        let S1 := swrite S l (SBranch p cs') in
        match filter (fun c => k_exists c = true) cs' with
        | [only] =>
            if bool_decide (0 < s_len p)%nat then
              let? S2 := sdel_node S1 p in
              let '(A, up) := append grow (arrs S2) p (content (arrs S2) (k_suffix only)) in
              sinvalidatePath (set_arrs S2 A) up path'
            else
              let? S2 := sput_node S1 p l in
              sinvalidatePath S2 p path'
        | [] =>
            if bool_decide (s_len p = 0)%nat then
              let? S2 := sput_node S1 p l in
              sinvalidatePath S2 p path'
            else sprune S1 p path'
        | _ =>
            let? S2 := sput_node S1 p l in
            sinvalidatePath S2 p path'
        end
    end.

  (** tree/tree.go:81-137 *)
  Fixpoint supdate (fuel : nat) (S : sstate) (nodePrefix prefix value : slice)
      (rootPath : list loc) : res sstate :=
    match fuel with
    | O => OutOfFuel
    | Datatypes.S fuel' =>
        if negb (PrefixOf (content (arrs S) nodePrefix) (content (arrs S) prefix)) then
          (* 82-97 *)
          let '(S1, leaf) := salloc S (SLeaf prefix value) in
          let? S2 := sput_node S1 prefix leaf in
          let pp := sCommonPrefix (arrs S2) nodePrefix prefix in
          let? suf1 := from nodePrefix (s_len pp) in
          let? cs1 := sPutChild (arrs S2) (repeat zero_schild 16) suf1 zeroHash in
          let? suf2 := from prefix (s_len pp) in
          let? cs2 := sPutChild (arrs S2) cs1 suf2 zeroHash in
          let '(S3, newParent) := salloc S2 (SBranch pp cs2) in
          let? S4 := sput_node S3 pp newParent in
          sinvalidatePath S4 pp rootPath
        else if bytes_eqb (content (arrs S) nodePrefix) (content (arrs S) prefix) then
          (* 99-113 *)
          match content (arrs S) value with
          | [] => let? S1 := sdel_node S nodePrefix in sprune S1 nodePrefix rootPath
          | _ => let '(S1, leaf) := salloc S (SLeaf nodePrefix value) in
                 let? S2 := sput_node S1 nodePrefix leaf in
                 sinvalidatePath S2 nodePrefix rootPath
          end
        else
          (* 115-136; line 122 appends to [node.Prefix[:n:n]] *)
          match GetNode (ssto S) (content (arrs S) nodePrefix) with
          | None => Panic
          | Some l =>
              let? (p, cs) := sas_branch S l in
              let? d := index (content (arrs S) prefix) (s_len p) in
              let? c := index cs (Z.to_nat d) in
              if k_exists c then
                let '(A, childPrefix) := append grow (arrs S) (clip p) (content (arrs S) (k_suffix c)) in
                supdate fuel' (set_arrs S A) childPrefix prefix value (l :: rootPath)
              else
                let '(S1, leaf) := salloc S (SLeaf prefix value) in
                let? S2 := sput_node S1 prefix leaf in
                let? suffix := from prefix (s_len p) in
                let? cs' := sPutChild (arrs S2) cs suffix zeroHash in
                let S3 := swrite S2 l (SBranch p cs') in
                let? S4 := sput_node S3 p l in
                sinvalidatePath S4 nodePrefix rootPath
          end
    end.

  (** tree/tree.go:48-64 *)
  Definition supdateEntry (S : sstate) (key : bytes) (value : slice) : res (sstate * bool) :=
    let '(S1, prefix) := sKeyToNibbles S key in
    let go := let? S' := supdate tree_fuel S1 nil_slice prefix value [] in Ok (S', true) in
    match GetNode (ssto S1) (content (arrs S1) prefix) with
    | None => match content (arrs S1) value with [] => Ok (S1, false) | _ => go end
    | Some l => match sheap S1 !! l with
                | Some (SLeaf _ v) => if bytes_eqb (content (arrs S1) v) (content (arrs S1) value) then Ok (S1, false) else go
                | _ => go
                end
    end.

  Section WithHash.
    (** The hash function. *)
    Variable H : bytes -> bytes.

    (** tree/node.go:35-56, 83-88: the hashes read the slices. *)
    Definition snode_hash (A : arrays) (n : snode) : res bytes :=
      match node_now A n with
      | Branch p cs => branch_hash H p cs
      | Leaf p v => leaf_hash H p v
      end.

    (** tree/tree.go:67-69 *)
    Definition sHash (S : sstate) : res bytes :=
      match GetNode (ssto S) [] with
      | None => Panic
      | Some l => let? (p, cs) := sas_branch S l in snode_hash (arrs S) (SBranch p cs)
      end.

    (** tree/tree.go:197-204; line 202 appends to the parameter [prefix]. *)
    Definition shash_child (rec : sstate -> slice -> res (sstate * bytes)) (l : loc) (prefix : slice)
        (S : sstate) (i : nat) : res sstate :=
      let? (p, cs) := sas_branch S l in
      let? c := index cs i in
      if negb (k_exists c) then Ok S
      else if bytes_eqb (k_hash c) zeroHash then
        let '(A, deeper) := append grow (arrs S) prefix (content (arrs S) (k_suffix c)) in
        let? (S', h) := rec (set_arrs S A) deeper in
        let? (p', cs') := sas_branch S' l in
        let? c' := index cs' i in
        Ok (swrite S' l (SBranch p' (<[i := SChild (k_suffix c') h (k_exists c')]> cs')))
      else Ok S.

    (** tree/tree.go:191-210 *)
    Fixpoint supdateHashes (fuel : nat) (S : sstate) (prefix : slice) : res (sstate * bytes) :=
      match fuel with
      | O => OutOfFuel
      | Datatypes.S fuel' =>
          match GetNode (ssto S) (content (arrs S) prefix) with
          | None => Panic
          | Some l =>
              match sheap S !! l with
              | None => Panic
              | Some (SLeaf p v) => let? h := snode_hash (arrs S) (SLeaf p v) in Ok (S, h)
              | Some (SBranch _ _) =>
                  let? S1 := for_each (shash_child (supdateHashes fuel') l prefix) (seq 0 16) S in
                  let? (p, cs) := sas_branch S1 l in
                  let? S2 := sput_node S1 p l in
                  let? h := snode_hash (arrs S2) (SBranch p cs) in
                  Ok (S2, h)
              end
          end
      end.

    (** tree/tree.go:42-46 *)
    Definition sPutEntry (S : sstate) (key : bytes) (value : slice) : res (sstate * bool) :=
      let? (S1, changed) := supdateEntry S key value in
      let? (S2, _) := supdateHashes tree_fuel S1 nil_slice in
      Ok (S2, changed).
  End WithHash.
End WithGrow.
