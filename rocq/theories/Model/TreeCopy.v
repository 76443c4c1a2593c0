(** tree/tree.go over a Store that keeps nodes by value: PutNode records a copy of the
    node, GetNode returns a fresh copy (as a database that serialises nodes does).
    tree/store.go:3-8 asks for nothing else.  The node objects that the tree code
    changes are then its own copies: a change reaches the store only through PutNode.
    (Model/Tree.v has the stores of the repository, which keep the pointers.) *)
From Coq Require Import ZArith List Lia Bool.
From stdpp Require Import gmap list.
From Verif.Model Require Import Base Address Nibbles Tree.
Open Scope Z_scope.

(** tree/store.go:4-8 *)
Notation cstore := (gmap nibbles node).

(** A tree with an empty root, as NewMemStore makes it (store_mem.go:9-15). *)
Definition c_new : cstore := {[ [] := new_branch [] ]}.

(** tree/tree.go:25-35 *)
Definition c_GetEntry (s : cstore) (key : bytes) : res (option bytes) :=
  match s !! KeyToNibbles key with
  | None => Ok None
  | Some (Leaf _ v) => Ok (Some v)
  | Some (Branch _ _) => Panic
  end.

(** tree/tree.go:141-152.  The path holds copies of branches, and none of them is
    put back: only a panic can be observed. *)
Fixpoint c_invalidatePath (current : nibbles) (path : list (nibbles * list child)) : res unit :=
  match path with
  | [] => Ok tt
  | (p, cs) :: path' =>
      let? suffix := slice_from current (length p) in
      let? _ := PutChild cs suffix zeroHash in
      c_invalidatePath p path'
  end.

(** tree/tree.go:156-188 *)
Fixpoint c_prune (s : cstore) (current : nibbles) (path : list (nibbles * list child)) : res cstore :=
  match path with
  | [] => Ok s
  | (p, cs) :: path' =>
      let? d := index current (length p) in
      let? c := index cs (Z.to_nat d) in
      let cs' := <[Z.to_nat d := Child (c_suffix c) (c_hash c) false]> cs in
      match filter (fun c => c_exists c = true) cs' with
      | [only] =>
          if bool_decide (0 < length p)%nat then
            let? _ := c_invalidatePath (p ++ c_suffix only) path' in
            Ok (delete p s)
          else
            let? _ := c_invalidatePath p path' in
            Ok (<[p := Branch p cs']> s)
      | [] =>
          if bool_decide (length p = 0)%nat then
            let? _ := c_invalidatePath p path' in
            Ok (<[p := Branch p cs']> s)
          else c_prune s p path'
      | _ =>
          let? _ := c_invalidatePath p path' in
          Ok (<[p := Branch p cs']> s)
      end
  end.

(** tree/tree.go:81-137 *)
Fixpoint c_update (fuel : nat) (s : cstore) (nodePrefix prefix : nibbles) (value : bytes)
    (rootPath : list (nibbles * list child)) : res cstore :=
  match fuel with
  | O => OutOfFuel
  | S fuel' =>
      if negb (PrefixOf nodePrefix prefix) then
        (* 82-97 *)
        let s1 := <[prefix := Leaf prefix value]> s in
        let pp := CommonPrefix nodePrefix prefix in
        let? suf1 := slice_from nodePrefix (length pp) in
        let? cs1 := PutChild (repeat zero_child 16) suf1 zeroHash in
        let? suf2 := slice_from prefix (length pp) in
        let? cs2 := PutChild cs1 suf2 zeroHash in
        let s2 := <[pp := Branch pp cs2]> s1 in
        let? _ := c_invalidatePath pp rootPath in
        Ok s2
      else if bytes_eqb nodePrefix prefix then
        (* 99-113 *)
        match value with
        | [] => c_prune (delete nodePrefix s) nodePrefix rootPath
        | _ => let? _ := c_invalidatePath nodePrefix rootPath in
               Ok (<[nodePrefix := Leaf nodePrefix value]> s)
        end
      else
        (* 115-136 *)
        match s !! nodePrefix with
        | Some (Branch p cs) =>
            let? d := index prefix (length p) in
            let? c := index cs (Z.to_nat d) in
            if c_exists c then
              c_update fuel' s (p ++ c_suffix c) prefix value ((p, cs) :: rootPath)
            else
              let s1 := <[prefix := Leaf prefix value]> s in
              let? suffix := slice_from prefix (length p) in
              let? cs' := PutChild cs suffix zeroHash in
              let s2 := <[p := Branch p cs']> s1 in
              let? _ := c_invalidatePath nodePrefix rootPath in
              Ok s2
        | _ => Panic
        end
  end.

(** tree/tree.go:48-64 *)
Definition c_updateEntry (s : cstore) (key value : bytes) : res (cstore * bool) :=
  let prefix := KeyToNibbles key in
  let go := let? s' := c_update tree_fuel s [] prefix value [] in Ok (s', true) in
  match s !! prefix with
  | None => match value with [] => Ok (s, false) | _ => go end
  | Some (Leaf _ v) => if bytes_eqb v value then Ok (s, false) else go
  | Some (Branch _ _) => go
  end.

Section WithHash.
  Variable H : bytes -> bytes.

  (** tree/tree.go:67-69 *)
  Definition c_Hash (s : cstore) : res bytes :=
    match s !! [] with
    | Some (Branch p cs) => branch_hash H p cs
    | _ => Panic
    end.

  (** tree/tree.go:197-204: one iteration over the children [cs] of the copy at hand *)
  Definition c_hash_child (rec : cstore -> nibbles -> res (cstore * bytes)) (prefix : nibbles)
      (st : cstore * list child) (i : nat) : res (cstore * list child) :=
    let '(s, cs) := st in
    let? c := index cs i in
    if negb (c_exists c) then Ok (s, cs)
    else if bytes_eqb (c_hash c) zeroHash then
      let? (s', h) := rec s (prefix ++ c_suffix c) in
      Ok (s', <[i := Child (c_suffix c) h (c_exists c)]> cs)
    else Ok (s, cs).

  (** tree/tree.go:191-210 *)
  Fixpoint c_updateHashes (fuel : nat) (s : cstore) (prefix : nibbles) : res (cstore * bytes) :=
    match fuel with
    | O => OutOfFuel
    | S fuel' =>
        match s !! prefix with
        | None => Panic
        | Some (Leaf p v) => let? h := leaf_hash H p v in Ok (s, h)
        | Some (Branch p cs) =>
            let? (s1, cs1) := for_each (c_hash_child (c_updateHashes fuel') prefix) (seq 0 16) (s, cs) in
            let? h := branch_hash H p cs1 in
            Ok (<[p := Branch p cs1]> s1, h)
        end
    end.

  (** tree/tree.go:42-46 *)
  Definition c_PutEntry (s : cstore) (key value : bytes) : res (cstore * bool) :=
    let? (s1, changed) := c_updateEntry s key value in
    let? (s2, _) := c_updateHashes tree_fuel s1 [] in
    Ok (s2, changed).

  (** A sequence of calls. *)
  Fixpoint c_run (s : cstore) (hist : list (list Z * list Z)) : res cstore :=
    match hist with
    | [] => Ok s
    | (k, v) :: hist' => let? (s', _) := c_PutEntry s k v in c_run s' hist'
    end.
End WithHash.
