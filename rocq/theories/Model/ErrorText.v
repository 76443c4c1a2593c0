(** The texts of the errors that Accounts.Push returns.  Strings are lists of bytes.  Package fmt
    is modelled as far as these formats need it: %d of unsigned numbers, %s, and %x of a
    pointer to a byte array, which prints an ampersand and two lower-case digits per byte.
    Errors that wrap an error of package beserial (undecodable proofs and contract data) are
    left out. *)
From Coq Require Import ZArith List String.
Import ListNotations.
From Verif.Model Require Import Base Address Nibbles.
Open Scope Z_scope.
Open Scope list_scope.

(** %d of a number below 10^20. *)
Fixpoint digits10 (n : nat) (z : Z) : bytes :=
  match n with
  | O => []
  | S n' => if z <? 10 then [48 + z] else digits10 n' (z / 10) ++ [48 + z mod 10]
  end.
Definition fmt_d (z : Z) : bytes := digits10 20 z.
(** %x of one digit and of bytes *)
Definition fmt_x1 (n : Z) : Z := if n <? 10 then 48 + n else 87 + n.
Definition fmt_x (a : bytes) : bytes := flat_map (fun b => [fmt_x1 (b / 16); fmt_x1 (b mod 16)]) a.
(** %x of &[20]byte{...} *)
Definition fmt_x_ptr (a : bytes) : bytes := 38 :: fmt_x a.

(** accounts/accounts.go:301-303 *)
Definition prune_text (address : bytes) (cause : bytes) : bytes :=
  str "invalid prune of account " ++ Encode address ++ str ": " ++ cause.
(** accounts/accounts.go:288-290 *)
Definition recipient_text (address : bytes) (cause : bytes) : bytes :=
  str "invalid for recipient " ++ fmt_x_ptr address ++ str ": " ++ cause.
(** accounts/accounts.go:275-277 (no error of this type is made anywhere) *)
Definition sender_text (address : bytes) (cause : bytes) : bytes :=
  str "invalid for sender " ++ fmt_x_ptr address ++ str ": " ++ cause.

(** What Error() can return for an error of Push.  An error that names one of several addresses
    (accounts.go:194-206) has several texts; [EHTLCProofType] carries no number in the model
    (account.go:394), so it has one for each number. *)
Inductive error_text : error -> bytes -> Prop :=
| text_overspend a s : error_text (EOverspend a s)       (* wire/account.go:101-103 *)
    (str "trying to spend " ++ fmt_d s ++ str " but only has " ++ fmt_d a)
| text_mismatch x g : error_text (EAccountTypeMismatch x g)  (* accounts/accounts.go:265-268 *)
    (str "account type mismatch: got " ++ fmt_d g ++ str " want " ++ fmt_d x)
| text_missing a : error_text (EPruneMissing a) (prune_text a (str "account missing in prune list"))   (* accounts.go:178-182 *)
| text_altered a : error_text (EPruneAltered a) (prune_text a (str "altered account in prune list"))   (* accounts.go:184-188 *)
| text_early l a : In a l -> error_text (EPruneEarly l) (prune_text a (str "account pruned too early")) (* accounts.go:194-206 *)
| text_create_basic a : error_text (ECreateBasic a) (recipient_text a (str "contract creation for basic account")) (* accounts.go:219-223 *)
| text_create_type a n : error_text (ECreateBadType a n) (recipient_text a (str "invalid recipient type: " ++ fmt_d n)) (* accounts.go:228-232 *)
| text_vesting : error_text EBadVesting (str "failed to init contract: invalid vesting account") (* account.go:219, accounts.go:235 *)
| text_count : error_text EBadHashCount (str "failed to init contract: invalid hash count: 0")   (* account.go:306-308, accounts.go:235 *)
| text_signature : error_text EBadSignature (str "invalid signature")                            (* account.go:240 *)
| text_no_proof : error_text EMissingProof (str "missing HTLC proof")                            (* account.go:331 *)
| text_expired : error_text EHTLCExpired (str "HTLC has expired")                                (* account.go:340 *)
| text_not_expired : error_text EHTLCNotExpired (str "HTLC has not expired yet")                 (* account.go:381 *)
| text_hash : error_text EHTLCHash (str "HTLC hash mismatch")                                    (* account.go:355 *)
| text_recipient : error_text EHTLCRecipientSig (str "invalid recipient signature")              (* account.go:359,373 *)
| text_sender : error_text EHTLCSenderSig (str "invalid sender signature")                       (* account.go:376,391 *)
| text_proof_type n : error_text EHTLCProofType (str "unsupported HTLC proof type: " ++ fmt_d n).  (* account.go:394 *)

(** accounts/accounts.go:279-281, 292-294, 305-307, 235: errors.Unwrap gives the cause. *)
Definition unwrap_text (e : error) : option bytes :=
  match e with
  | EPruneMissing _ => Some (str "account missing in prune list")
  | EPruneAltered _ => Some (str "altered account in prune list")
  | EPruneEarly _ => Some (str "account pruned too early")
  | ECreateBasic _ => Some (str "contract creation for basic account")
  | ECreateBadType _ n => Some (str "invalid recipient type: " ++ fmt_d n)
  | EBadVesting => Some (str "invalid vesting account")
  | EBadHashCount => Some (str "invalid hash count: 0")
  | _ => None
  end.
