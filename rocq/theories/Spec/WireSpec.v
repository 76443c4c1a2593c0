(** What a well-formed account, transaction, signature proof, ... is: the fields
    fit their Go types.  Uses only the data types of Model/Wire.v. *)
From Coq Require Import ZArith List Bool.
Import ListNotations.
From Verif.Model Require Import Base Beserial Wire.
From Verif.Spec Require Import BeserialSpec.
Open Scope Z_scope.

Definition u8 (z : Z) : Prop := 0 <= z < 2 ^ 8.
Definition u16 (z : Z) : Prop := 0 <= z < 2 ^ 16.
Definition u32 (z : Z) : Prop := 0 <= z < 2 ^ 32.
Definition u64 (z : Z) : Prop := 0 <= z < 2 ^ 64.
(** A [n]byte array. *)
Definition array (n : nat) (b : bytes) : Prop := length b = n /\ bytes_ok b.

Definition hash_ok (h : Hash) : Prop := u8 (Algorithm h) /\ array 32 (Bytes h).
Definition account_ok (a : Account) : Prop :=
  match a with
  | ABasic v => u64 v
  | AVesting c =>
      u64 (v_value c) /\ array 20 (v_owner c) /\ u32 (v_start c) /\ u32 (v_step_blocks c) /\ u64 (v_step_amount c) /\
      u64 (v_total c)
  | AHTLC h =>
      u64 (h_value h) /\ array 20 (h_sender h) /\ array 20 (h_recipient h) /\ hash_ok (h_hash h) /\ u8 (h_count h) /\
      u32 (h_timeout h) /\ u64 (h_total h)
  end.
Definition tx_ok (t : Tx) : Prop :=
  match t with
  | TBasic b =>
      array 32 (b_pubkey b) /\ array 20 (b_recipient b) /\ u64 (b_value b) /\ u64 (b_fee b) /\ u32 (b_height b) /\
      u8 (b_network b) /\ array 64 (b_signature b)
  | TExtended x =>
      bytes_ok (x_data x) /\ zlen (x_data x) < 2 ^ 16 /\
      array 20 (x_sender x) /\ u8 (x_sender_type x) /\ array 20 (x_recipient x) /\ u8 (x_recipient_type x) /\
      u64 (x_value x) /\ u64 (x_fee x) /\ u32 (x_height x) /\ u8 (x_network x) /\ u8 (x_flags x) /\
      bytes_ok (x_proof x) /\ zlen (x_proof x) < 2 ^ 16
  end.

(** A bit set for [n] bits: ceil(n/8) bytes. *)
Definition bitset_ok (bs : BitSet) : Prop :=
  0 <= Len bs <= 248 /\ bytes_ok (Bits bs) /\ zlen (Bits bs) = (Len bs + 7) / 8.
Definition path_ok (p : MerklePath) : Prop :=
  bitset_ok (Branches p) /\ zlen (Hashes p) = Len (Branches p) /\ Forall (array 32) (Hashes p).
Definition proof_ok (p : SignatureProof) : Prop :=
  array 32 (PublicKey p) /\ path_ok (Path p) /\ array 64 (Signature p).

(** Bit [i] of a byte string, most significant bit of each byte first. *)
Definition bit_at (bits : bytes) (i : nat) : bool :=
  Z.testbit (nth (i / 8) bits 0) (7 - Z.of_nat (i mod 8)).
(** The first [n] bits. *)
Definition first_bits (n : nat) (bits : bytes) : list bool := map (bit_at bits) (seq 0 n).
(** Number of 0 bits. *)
Definition zeros (l : list bool) : Z := zlen (filter negb l).
(** An interlink: a 0 bit takes the next of the distinct hashes, a 1 bit repeats
    the previous hash. *)
Fixpoint expand (l : list bool) (distinct : list bytes) (prev : bytes) : list bytes :=
  match l with
  | [] => []
  | true :: l' => prev :: expand l' distinct prev
  | false :: l' => match distinct with
                   | [] => []
                   | h :: distinct' => h :: expand l' distinct' h
                   end
  end.
(** [n] consecutive chunks of 32 bytes. *)
Fixpoint chunks (n : nat) (b : bytes) : list bytes :=
  match n with
  | O => []
  | S n' => firstn 32 b :: chunks n' (skipn 32 b)
  end.

Definition header_ok (h : BlockHeader) : Prop :=
  u16 (bh_version h) /\ array 32 (bh_prev h) /\ array 32 (bh_interlink h) /\ array 32 (bh_body h) /\
  array 32 (bh_accounts h) /\ u32 (bh_nbits h) /\ u32 (bh_height h) /\ u32 (bh_timestamp h) /\ u32 (bh_nonce h).
Definition pruned_ok (p : AccountPruned) : Prop :=
  array 20 (p_address p) /\ exists a, p_account p = Some a /\ account_ok a.
Definition body_ok (b : BlockBody) : Prop :=
  array 20 (bb_miner b) /\ bytes_ok (bb_extra b) /\ zlen (bb_extra b) < 2 ^ 8 /\
  zlen (bb_txs b) < 2 ^ 16 /\ Forall (fun t => exists x, t = Some x /\ tx_ok x) (bb_txs b) /\
  zlen (bb_pruned b) < 2 ^ 16 /\ Forall pruned_ok (bb_pruned b).


(** The 32 bytes (zero padded) at offset [i], as a slot of the interlink. *)
Definition padded32 (b : bytes) (i : nat) : bytes :=
  let x := firstn 32 (skipn i b) in x ++ repeat 0 (32 - length x).

(** The byte strings that are hashed on the way from a leaf along a merkle path
    whose directions are [dirs] (true: the path node is on the left). *)
Fixpoint hashed_along (H : bytes -> bytes) (dirs : list bool) (nodes : list bytes) (cur : bytes) : list bytes :=
  match dirs, nodes with
  | d :: dirs', h :: nodes' =>
      let x := if d then h ++ H cur else H cur ++ h in cur :: hashed_along H dirs' nodes' x
  | _, _ => [cur]
  end.
(** One direction for each node of the path. *)
Definition directions (p : MerklePath) : list bool := first_bits (length (Hashes p)) (Bits (Branches p)).
Definition path_hashed (H : bytes -> bytes) (p : MerklePath) (leaf : bytes) : list bytes :=
  hashed_along H (directions p) (Hashes p) leaf.
(** Two different byte strings, one from each list, with the same hash. *)
Definition collision_in (H : bytes -> bytes) (xs ys : list bytes) : Prop :=
  exists x y, In x xs /\ In y ys /\ x <> y /\ H x = H y.

(** The root of a merkle path: hash the leaf, then combine with the path nodes. *)
Definition merkle_root_of (H : bytes -> bytes) (dirs : list bool) (nodes : list bytes) (leaf : bytes) : bytes :=
  fold_left (fun r (x : bool * bytes) => if fst x then H (snd x ++ r) else H (r ++ snd x)) (combine dirs nodes) (H leaf).
(** The address that a signature proof speaks for. *)
Definition signer_of (H : bytes -> bytes) (p : SignatureProof) : bytes :=
  firstn 20 (merkle_root_of H (directions (Path p)) (Hashes (Path p)) (PublicKey p)).

Definition netaddr_ok (a : NetAddress) : Prop :=
  (na_type a = 0 /\ array 4 (na_ip a)) \/ (na_type a = 1 /\ array 16 (na_ip a)).


(** ** The wire formats, byte by byte (big-endian integers) *)
Definition be (n : nat) (z : Z) : bytes := big_endian n z.
Definition account_bytes (a : Account) : bytes :=
  match a with
  | ABasic v => 0 :: be 8 v
  | AVesting c => 1 :: be 8 (v_value c) ++ v_owner c ++ be 4 (v_start c) ++ be 4 (v_step_blocks c) ++
                  be 8 (v_step_amount c) ++ be 8 (v_total c)
  | AHTLC h => 2 :: be 8 (h_value h) ++ h_sender h ++ h_recipient h ++ (Algorithm (h_hash h) :: Bytes (h_hash h)) ++
               be 1 (h_count h) ++ be 4 (h_timeout h) ++ be 8 (h_total h)
  end.
Definition content_bytes (c : TxContent) : bytes :=
  be 2 (zlen (c_data c)) ++ c_data c ++ c_sender c ++ be 1 (c_sender_type c) ++ c_recipient c ++ be 1 (c_recipient_type c) ++
  be 8 (c_value c) ++ be 8 (c_fee c) ++ be 4 (c_height c) ++ be 1 (c_network c) ++ be 1 (c_flags c).
Definition tx_bytes (t : Tx) : bytes :=
  match t with
  | TBasic b => 0 :: b_pubkey b ++ b_recipient b ++ be 8 (b_value b) ++ be 8 (b_fee b) ++ be 4 (b_height b) ++
                be 1 (b_network b) ++ b_signature b
  | TExtended x =>
      1 :: be 2 (zlen (x_data x)) ++ x_data x ++ x_sender x ++ be 1 (x_sender_type x) ++ x_recipient x ++
      be 1 (x_recipient_type x) ++ be 8 (x_value x) ++ be 8 (x_fee x) ++ be 4 (x_height x) ++ be 1 (x_network x) ++
      be 1 (x_flags x) ++ be 2 (zlen (x_proof x)) ++ x_proof x
  end.
Definition bitset_bytes (b : BitSet) : bytes := Len b :: Bits b.
Definition proof_bytes (p : SignatureProof) : bytes :=
  PublicKey p ++ (bitset_bytes (Branches (Path p)) ++ concat (Hashes (Path p))) ++ Signature p.
Definition header_bytes (h : BlockHeader) : bytes :=
  be 2 (bh_version h) ++ bh_prev h ++ bh_interlink h ++ bh_body h ++ bh_accounts h ++ be 4 (bh_nbits h) ++
  be 4 (bh_height h) ++ be 4 (bh_timestamp h) ++ be 4 (bh_nonce h).
(** [t] / [p_account p] are present in well-formed bodies. *)
Definition opt_tx_bytes (t : option Tx) : bytes := match t with Some t => tx_bytes t | None => [] end.
Definition pruned_bytes (p : AccountPruned) : bytes :=
  p_address p ++ match p_account p with Some a => account_bytes a | None => [] end.
Definition body_bytes (b : BlockBody) : bytes :=
  bb_miner b ++ be 1 (zlen (bb_extra b)) ++ bb_extra b ++
  be 2 (zlen (bb_txs b)) ++ concat (map opt_tx_bytes (bb_txs b)) ++
  be 2 (zlen (bb_pruned b)) ++ concat (map pruned_bytes (bb_pruned b)).

(** An interlink on the wire: the bit set, then one hash for every 0 bit. *)
Definition interlink_fits (bs : BitSet) (distinct : list bytes) : Prop :=
  bitset_ok bs /\ Forall (array 32) distinct /\ zlen distinct = zeros (first_bits (Z.to_nat (Len bs)) (Bits bs)).
Definition interlink_bytes (bs : BitSet) (distinct : list bytes) : bytes := bitset_bytes bs ++ concat distinct.
Definition opt_body_bytes (b : option BlockBody) : bytes :=
  match b with None => [0] | Some b => 1 :: body_bytes b end.
(** A block on the wire. *)
Definition block_bytes (h : BlockHeader) (bs : BitSet) (distinct : list bytes) (b : option BlockBody) : bytes :=
  header_bytes h ++ interlink_bytes bs distinct ++ opt_body_bytes b.

Definition staking_ok (x : StakingTxData) : Prop :=
  array 96 (sk_key x) /\ (forall a, sk_reward x = Some a -> array 20 a) /\ array 48 (sk_proof x).
Definition staking_bytes (x : StakingTxData) : bytes :=
  sk_key x ++ match sk_reward x with None => [0] | Some a => 1 :: a end ++ sk_proof x.
