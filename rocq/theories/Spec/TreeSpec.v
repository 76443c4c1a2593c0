(** Specification of the state tree: contents of a history of writes and the
    Merkle-Patricia hash of a set of entries, defined from the entries alone
    (no store, no nodes, no history).  Independent of the model. *)
From Coq Require Import ZArith List.
From stdpp Require Import gmap list.
Open Scope Z_scope.

(** The entries: 20-byte keys to non-empty values. *)
Notation entries := (gmap (list Z) (list Z)).

(** One write; the empty value deletes. *)
Definition spec_put (M : entries) (kv : list Z * list Z) : entries :=
  match kv.2 with
  | [] => delete kv.1 M
  | _ => <[kv.1 := kv.2]> M
  end.
(** The entries after a sequence of writes to an empty tree. *)
Definition contents (hist : list (list Z * list Z)) : entries := foldl spec_put ∅ hist.

(** A key as 40 hexadecimal digits (numbers 0..15), most significant first. *)
Definition nibs (k : list Z) : list Z := flat_map (fun b => [b / 16; b mod 16]) k.
(** The same entries, indexed by digit path. *)
Definition by_path (M : entries) : entries :=
  list_to_map (map (fun kv => (nibs kv.1, kv.2)) (map_to_list M)).

(** ** The trie of a set of entries [N] indexed by path *)
(** The entries whose path begins with [r]. *)
Definition below (N : entries) (r : list Z) : entries := filter (fun kv => r `prefix_of` kv.1) N.
(** Some path begins with [r]. *)
Definition has (N : entries) (r : list Z) : Prop := exists k v, N !! k = Some v /\ r `prefix_of` k.
(** Two entries diverge right after [p]. *)
Definition branching (N : entries) (p : list Z) : Prop :=
  exists i j, i <> j /\ has N (p ++ [i]) /\ has N (p ++ [j]).
(** The nodes of the trie: the root, the entries, and the points of divergence. *)
Definition is_node (N : entries) (p : list Z) : Prop :=
  p = [] \/ is_Some (N !! p) \/ branching N p.

(** Longest common prefix of two paths, of a list of paths. *)
Fixpoint lcp2 (a b : list Z) : list Z :=
  match a, b with
  | x :: a', y :: b' => if Z.eqb x y then x :: lcp2 a' b' else []
  | _, _ => []
  end.
Fixpoint lcp (l : list (list Z)) : list Z :=
  match l with
  | [] => []
  | [a] => a
  | a :: l' => lcp2 a (lcp l')
  end.
(** The node reached from a branch through the digit that ends [r]. *)
Definition target (N : entries) (r : list Z) : list Z := lcp (map_to_list (below N r)).*1.

(** ASCII of a hexadecimal digit. *)
Definition hexchar (n : Z) : Z := if n <? 10 then 48 + n else 87 + n.
Definition hexs (l : list Z) : list Z := map hexchar l.
Definition len8 {A} (l : list A) : Z := Z.of_nat (length l).
(** The digits after [p] under which there are entries. *)
Definition digits : list Z := [0;1;2;3;4;5;6;7;8;9;10;11;12;13;14;15].
Definition used (N : entries) (p : list Z) : list Z :=
  filter (fun i => below N (p ++ [i]) <> ∅) digits.

(** The bytes hashed for the node at [p]: a leaf is 0xFF, 40, hex path, value;
    a branch is 0x00, length and hex of its path, number of children, and for
    each child the length and hex of the path from here to it and its hash.
    [depth] bounds the height (41 suffices for 40-digit paths). *)
Fixpoint node_bytes (H : list Z -> list Z) (depth : nat) (N : entries) (p : list Z) : list Z :=
  match depth with
  | O => []
  | S depth' =>
      match N !! p with
      | Some v => [0xFF; 40] ++ hexs p ++ v
      | None =>
          [0x00; len8 p] ++ hexs p ++ [len8 (used N p)] ++
          flat_map (fun i =>
             let q := target N (p ++ [i]) in
             let suffix := drop (length p) q in
             [len8 suffix] ++ hexs suffix ++ H (node_bytes H depth' N q))
            (used N p)
      end
  end.
Definition merkle_bytes (H : list Z -> list Z) (N : entries) (p : list Z) : list Z := node_bytes H 41 N p.
(** The Merkle root of a set of entries with 20-byte keys. *)
Definition merkle_root (H : list Z -> list Z) (M : entries) : list Z := H (merkle_bytes H (by_path M) []).
