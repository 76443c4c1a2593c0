(** Model of wallet/basic.go, and of the peer address signatures of wire/p2p.go:154-184.

    Ed25519 is a parameter: [ed_public seed] is the public key of a 32-byte seed,
    [ed_sign key message] the signature with a 64-byte private key (seed and public
    key), [ed_verify public message signature] the check.  [H] is Blake2b. *)
From Coq Require Import ZArith List Bool.
Import ListNotations.
From Verif.Model Require Import Base Beserial Wire.
Open Scope Z_scope.

(** basic.go:18-22.  A nil slice is [None]. *)
Record Basic := MkWallet { w_private : option bytes; w_public : option bytes; w_address : bytes }.
Definition zero20 : bytes := repeat 0 20.
(** Go's copy(dst, src) *)
Definition copy_to (dst src : bytes) : bytes := firstn (length dst) src ++ skipn (length src) dst.

Section Wallet.
  Variable H : bytes -> bytes.
  Variable ed_public : bytes -> bytes.
  Variable ed_sign : bytes -> bytes -> bytes.
  Variable ed_verify : bytes -> bytes -> bytes -> bool.

  (** basic.go:25-32: ed25519.NewKeyFromSeed panics unless there are 32 bytes *)
  Definition DeriveBasic (buf : bytes) : res Basic :=
    if zlen buf =? 32 then Ok (MkWallet (Some (buf ++ ed_public buf)) (Some (ed_public buf)) zero20) else Panic.
  (** basic.go:35-45: the random seed, if the system's generator works *)
  Definition GenerateBasic (random : option bytes) : res Basic :=
    match random with
    | None => Panic
    | Some seed => Ok (MkWallet (Some (seed ++ ed_public seed)) (Some (ed_public seed)) zero20)
    end.
  (** basic.go:57-63.  A slice expression past the length of a key panics (we take its capacity to be its length). *)
  Definition GetPublicKey (w : Basic) : res bytes :=
    match w_public w with
    | None => Panic
    | Some pub => if zlen pub <? 32 then Panic else Ok (copy_to (repeat 0 32) (firstn 32 pub))
    end.
  (** basic.go:48-54: the address and the wallet (with the memoised address) *)
  Definition GetAddress (w : Basic) : res (bytes * Basic) :=
    if bytes_eqb (w_address w) zero20 then
      let? pub := GetPublicKey w in
      let a := PublicKeyToAddress H pub in
      Ok (a, MkWallet (w_private w) (w_public w) a)
    else Ok (w_address w, w).
  (** crypto/ed25519: PrivateKey.Sign with no hash option; Sign panics on a key of the wrong length *)
  Definition private_Sign (key : option bytes) (message : bytes) : res bytes :=
    match key with
    | Some k => if zlen k =? 64 then Ok (ed_sign k message) else Panic
    | None => Panic
    end.
  (** basic.go:65-79 *)
  Definition signTx (w : Basic) (tx : Tx) : res bytes :=
    match w_public w with
    | None => Panic
    | Some _ =>
        let? (contentBuf, err) := Marshal [] (APtr ty_content (v_content (AsTxContent H tx))) in
        match err with
        | Some _ => Panic
        | None => private_Sign (w_private w) contentBuf
        end
    end.
  (** basic.go:82-89: the transaction afterwards and the error.  bytes.Equal treats nil as empty. *)
  Definition SignBasicTx (w : Basic) (tx : BasicTx) : res (BasicTx * option error) :=
    if negb (bytes_eqb (match w_public w with Some p => p | None => [] end) (b_pubkey tx)) then Ok (tx, Some EWrongSender)
    else
      let? sig := signTx w (TBasic tx) in
      Ok (MkBasicTx (b_pubkey tx) (b_recipient tx) (b_value tx) (b_fee tx) (b_height tx) (b_network tx)
            (copy_to (b_signature tx) sig), None).
  (** basic.go:92-99: the transaction afterwards and the error *)
  Definition SignExtendedTx (w : Basic) (tx : ExtendedTx) : res (ExtendedTx * option error) :=
    let? sig := signTx w (TExtended tx) in
    match w_public w with
    | None => Panic
    | Some pub =>
        if zlen pub <? 32 then Panic
        else if zlen sig <? 64 then Panic
        else
          let proof := MkProof (copy_to (repeat 0 32) (firstn 32 pub)) (MkMerklePath (MkBitSet 0 []) [])
                         (copy_to (repeat 0 64) (firstn 64 sig)) in
          let? (buf, err) := Marshal [] (APtr ty_proof (v_proof proof)) in
          Ok (MkExtendedTx (x_data tx) (x_sender tx) (x_sender_type tx) (x_recipient tx) (x_recipient_type tx)
                (x_value tx) (x_fee tx) (x_height tx) (x_network tx) (x_flags tx) buf, err)
    end.

  (** wire/p2p.go:165-173: the 13-byte buffer of 166-169, the signature, the key and the signature copied.
      ed25519.Sign panics unless the key has 64 bytes. *)
  Definition PeerAddress_Sign (pa : PeerAddress) (pk : bytes) : res PeerAddress :=
    let h := pa_header pa in
    let buf := pa_protocol h :: be_put 4 (pa_services h) ++ be_put 8 (pa_timestamp h) in
    if zlen pk =? 64 then
      Ok (MkPeerAddress
            (MkPeerHeader (pa_protocol h) (pa_services h) (pa_timestamp h) (pa_net h) (copy_to (pa_pubkey h) (skipn 32 pk))
               (pa_distance h) (copy_to (pa_signature h) (ed_sign pk buf)))
            (pa_detail pa))
    else Panic.
  (** wire/p2p.go:177-184: the same buffer (178-182; 181 repeats 180) *)
  Definition PeerAddress_VerifySignature (pa : PeerAddress) : bool :=
    let h := pa_header pa in
    let buf := pa_protocol h :: be_put 4 (pa_services h) ++ be_put 8 (pa_timestamp h) in
    ed_verify (pa_pubkey h) buf (pa_signature h).
End Wallet.
