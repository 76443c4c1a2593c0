(** Peer address headers and server addresses, byte by byte. *)
From Coq Require Import ZArith List Bool.
Import ListNotations.
From Verif.Model Require Import Base Beserial Wire.
From Verif.Spec Require Import BeserialSpec WireSpec.
Open Scope Z_scope.

Definition peer_header_ok (h : PeerAddressHeader) : Prop :=
  u8 (pa_protocol h) /\ u32 (pa_services h) /\ u64 (pa_timestamp h) /\ netaddr_ok (pa_net h) /\ array 32 (pa_pubkey h) /\
  u8 (pa_distance h) /\ array 64 (pa_signature h).
(** Protocol, services, time stamp, network address (type and IP), key, distance, signature. *)
Definition peer_header_bytes (h : PeerAddressHeader) : bytes :=
  be 1 (pa_protocol h) ++ be 4 (pa_services h) ++ be 8 (pa_timestamp h) ++ (na_type (pa_net h) :: na_ip (pa_net h)) ++
  pa_pubkey h ++ be 1 (pa_distance h) ++ pa_signature h.
(** The same header with another number in NetAddress.Type. *)
Definition with_net_type (h : PeerAddressHeader) (t : Z) : PeerAddressHeader :=
  MkPeerHeader (pa_protocol h) (pa_services h) (pa_timestamp h) (MkNetAddress t (na_ip (pa_net h))) (pa_pubkey h) (pa_distance h) (pa_signature h).
(** PeerAddressSrv{Host, Port, TLS} *)
Definition peer_srv (host : bytes) (port : Z) (tls : bool) : val := VStruct [VString host; VNum port; VBool tls].
Definition peer_srv_bytes (host : bytes) (port : Z) (tls : bool) : bytes :=
  be 1 (zlen host) ++ host ++ be 2 port ++ [if tls then 1 else 0].
