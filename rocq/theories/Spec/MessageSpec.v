(** The network messages, byte by byte: which payload of which message number
    means what.  The message structs are given by their fields, in order. *)
From Coq Require Import ZArith List Bool.
Import ListNotations.
From Verif.Model Require Import Base Beserial Wire Messages.
From Verif.Spec Require Import BeserialSpec WireSpec.
Open Scope Z_scope.

(** msg_inv.go: GetBlocksMessage{Locators, MaxInvSize, Direction} *)
Definition get_blocks (locators : list bytes) (max_inv direction : Z) : Message :=
  MPtr KGetBlocks (VStruct [VList (map vbytes locators); VNum max_inv; VNum direction]).
Definition get_blocks_bytes (locators : list bytes) (max_inv direction : Z) : bytes :=
  be 2 (zlen locators) ++ concat locators ++ be 2 max_inv ++ be 1 direction.
Definition get_blocks_ok (locators : list bytes) (max_inv direction : Z) : Prop :=
  Forall (array 32) locators /\ zlen locators < 2 ^ 16 /\ u16 max_inv /\ u8 direction.
(** HeaderMessage{BlockHeader}, HeadMessage{BlockHeader}, BlockMessage{Block}, TxMessage{Tx} *)
Definition header_msg (h : BlockHeader) : Message := MPtr KHeader (VStruct [v_header h]).
Definition head_msg (h : BlockHeader) : Message := MPtr KHead (VStruct [v_header h]).
Definition block_msg (b : Block) : Message := MPtr KBlock (VStruct [v_block b]).
Definition tx_msg (t : Tx) : Message := MPtr KTx (VStruct [v_wrap_tx (Some t)]).
(** AddrMessage{Addresses}, without addresses *)
Definition no_addresses : Message := MPtr KAddr (VStruct [VList []]).
(** GetAddrMessage{ProtocolMask, ServiceMask, MaxResults} *)
Definition get_addresses (protocols services results : Z) : Message :=
  MPtr KGetAddr (VStruct [VNum protocols; VNum services; VNum results]).
(** BasePingMessage{Nonce, Pong} *)
Definition ping_msg (nonce : Z) (pong : bool) : Message := MPtr KPing (VStruct [VNum nonce; VBool pong]).
(** VerAckMessage{PublicKey, Signature} *)
Definition verack (key sig : bytes) : Message := MPtr KVerAck (VStruct [vbytes key; vbytes sig]).
(** GetTxReceiptsMessage{Address, Offset} *)
Definition get_receipts (addr : bytes) (offset : Z) : Message := MPtr KGetTxReceipts (VStruct [vbytes addr; VNum offset]).

(** Message number, message, payload: everything UnmarshalMessage understands
    except blocks. *)
Inductive payload : Z -> Message -> bytes -> Prop :=
| pl_get_blocks locs m d : get_blocks_ok locs m d -> payload 5 (get_blocks locs m d) (get_blocks_bytes locs m d)
| pl_header h : header_ok h -> payload 7 (header_msg h) (header_bytes h)
| pl_tx t : tx_ok t -> payload 8 (tx_msg t) (tx_bytes t)
| pl_addresses : payload 20 no_addresses [0; 0]
| pl_get_addresses p s r : u8 p -> u32 s -> u16 r -> payload 21 (get_addresses p s r) (be 1 p ++ be 4 s ++ be 2 r)
| pl_ping n : u32 n -> payload 22 (ping_msg n false) (be 4 n)
| pl_pong n : u32 n -> payload 23 (ping_msg n true) (be 4 n)
| pl_head h : header_ok h -> payload 61 (head_msg h) (header_bytes h)
| pl_verack key sig : array 32 key -> array 64 sig -> payload 90 (verack key sig) (key ++ sig).

(** Message, message number, payload: everything MarshalMessage can send.  (Note
    the number of a header message; see C46.) *)
Inductive sent : Message -> Z -> bytes -> Prop :=
| se_get_blocks locs m d : get_blocks_ok locs m d -> sent (get_blocks locs m d) 5 (get_blocks_bytes locs m d)
| se_header h : header_ok h -> sent (header_msg h) 6 (header_bytes h)
| se_addresses : sent no_addresses 20 [0; 0]
| se_get_addresses p s r : u8 p -> u32 s -> u16 r -> sent (get_addresses p s r) 21 (be 1 p ++ be 4 s ++ be 2 r)
| se_get_receipts a o : array 20 a -> u32 o -> sent (get_receipts a o) 49 (a ++ be 4 o)
| se_head h : header_ok h -> sent (head_msg h) 61 (header_bytes h)
| se_verack key sig : array 32 key -> array 64 sig -> sent (verack key sig) 90 (key ++ sig).
(** A message as Go's type system allows it, with at most 65535 locators. *)
Definition message_ok (m : Message) : Prop :=
  match m with
  | MEmpty n => u64 n
  | MPtr k v => typed (ty_message k) v /\ (k = KGetBlocks -> zlen (list_of (fld 0 v)) < 2 ^ 16)
  end.
(** The message numbers the code has a decoder for: 0-9, 20-23, 40, 60, 61, 90. *)
Definition known (typ : Z) : Prop :=
  0 <= typ <= 9 \/ 20 <= typ <= 23 \/ typ = 40 \/ typ = 60 \/ typ = 61 \/ typ = 90.
