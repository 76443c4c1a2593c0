(** Model of address/address.go (whole file).  Strings are byte lists. *)
From Coq Require Import ZArith List Lia Bool Ascii String.
Import ListNotations.
From Verif.Model Require Import Base.
Open Scope Z_scope.

(** Bytes of a Go string literal (ASCII). *)
Fixpoint str (s : string) : bytes :=
  match s with
  | EmptyString => []
  | String c s' => Z.of_nat (nat_of_ascii c) :: str s'
  end.

(** address/address.go:22 *)
Definition alphabet : bytes := str "0123456789ABCDEFGHJKLMNPQRSTUVXY".

(** encoding/base32 (Go standard library, modelled by its documentation,
    RFC 4648): every 5 input bytes are one 40-bit number, written as 8 base-32
    digits, most significant first.  No padding occurs for 20 bytes. *)
Fixpoint digits32 (n : nat) (z : Z) : list Z :=
  match n with
  | O => []
  | S n' => (z / 32 ^ Z.of_nat n') mod 32 :: digits32 n' z
  end.
Definition b32_char (d : Z) : Z := nth (Z.to_nat d) alphabet 0.
Fixpoint b32_encode (quanta : nat) (src : bytes) : bytes :=
  match quanta with
  | O => []
  | S q => map b32_char (digits32 8 (be_get (firstn 5 src))) ++ b32_encode q (skipn 5 src)
  end.

(** Position of a character in the alphabet (the decodeMap of encoding/base32). *)
Fixpoint find_index (c : Z) (l : bytes) (i : Z) : option Z :=
  match l with
  | [] => None
  | x :: l' => if x =? c then Some i else find_index c l' (i + 1)
  end.
Definition b32_index (c : Z) : option Z := find_index c alphabet 0.
Fixpoint b32_value (acc : Z) (chars : bytes) : option Z :=
  match chars with
  | [] => Some acc
  | c :: r => match b32_index c with
              | Some d => b32_value (acc * 32 + d) r
              | None => None
              end
  end.
(** encoding/base32 Decode: quantum by quantum; a character outside the
    alphabet is a CorruptInputError.  (Newlines and padding are handled
    specially by the library, but address.go calls it only after addressCheck
    accepted letters and digits alone.) *)
Fixpoint b32_decode (quanta : nat) (src : bytes) : res bytes :=
  match quanta with
  | O => Ok []
  | S q => match b32_value 0 (firstn 8 src) with
           | Some z => let? rest := b32_decode q (skipn 8 src) in Ok (be_put 5 z ++ rest)
           | None => Err EBase32
           end
  end.

(** address/address.go:90-123.  [room] is len(compactRemainder), the recursion
    is on the remaining input; the characters written are accumulated. *)
Fixpoint truncateWhitespace_loop (remainder : bytes) (room : nat) (acc : bytes) : res bytes :=
  match remainder with
  | [] => if Nat.eqb room 0 then Ok acc else Err EInvalidLength
  | char :: rest =>
      match room with
      | O => Err EInvalidLength
      | S room' => if char =? 32 then truncateWhitespace_loop rest room acc
                   else truncateWhitespace_loop rest room' (acc ++ [char])
      end
  end.
Definition truncateWhitespace (encoded : bytes) : res bytes :=
  truncateWhitespace_loop encoded 36 [].

(** strconv.FormatUint(n, 10) for n < 100 (the only arguments used, lines 148
    and 210: 10..35 and 0..96). *)
Definition format_small (n : Z) : bytes :=
  if n <? 10 then [48 + n] else [48 + n / 10; 48 + n mod 10].
(** strconv.ParseUint(s, 10, 64) on decimal digits; at most 8 digits here (line
    204), so the 64-bit range error cannot occur. *)
Fixpoint parse_uint (acc : Z) (s : bytes) : Z :=
  match s with [] => acc | c :: s' => parse_uint (acc * 10 + (c - 48)) s' end.

(** address/address.go:132-166, one character of nextChars. *)
Definition check_char (char : Z) : res bytes :=
  if (0x60 <? char) && (char <=? 0x7A) then Ok (format_small (w8 (w8 (char - 0x20) - 0x37)))
  else if (0x40 <? char) && (char <=? 0x5A) then Ok (format_small (w8 (char - 0x37)))
  else if (0x30 <=? char) && (char <=? 0x39) then Ok [char]
  else Err EInvalidCharacter.
Fixpoint nextChars (slice : bytes) : res bytes :=
  match slice with
  | [] => Ok []
  | c :: r => let? s := check_char c in let? t := nextChars r in Ok (s ++ t)
  end.

(** address/address.go:186-215: the loop over blocks of 6 digits.  The fuel is
    the number of iterations allowed; blockCount is always enough. *)
Fixpoint check_loop (fuel : nat) (sum : bytes) (blockCount i : nat) (tmpBuffer : bytes) : res Z :=
  match fuel with
  | O => OutOfFuel
  | S fuel' =>
      let offset := (i * 6)%nat in
      let stop := if Nat.leb (List.length sum) (offset + 6) then List.length sum else (offset + 6)%nat in
      let block := firstn (stop - offset) (skipn offset sum) in
      let tmp := tmpBuffer ++ block in
      let tmpNum := parse_uint 0 tmp mod 97 in
      if Nat.ltb (i + 1) blockCount
      then check_loop fuel' sum blockCount (i + 1) (format_small tmpNum)
      else Ok (w8 tmpNum)
  end.

(** address/address.go:127-218 *)
Definition addressCheck (userFriendly : bytes) : res Z :=
  let? s1 := nextChars (skipn 4 userFriendly) in
  let? s2 := nextChars (firstn 4 userFriendly) in
  let sum := s1 ++ s2 in
  let blockCount := ((List.length sum + 5) / 6)%nat in
  check_loop (S blockCount) sum blockCount 0 [].

(** address/address.go:27-53 *)
Definition Decode (encoded : bytes) : res bytes :=
  let? compact := truncateWhitespace encoded in
  let? c0 := index compact 0 in
  let? c1 := index compact 1 in
  if negb (c0 =? 78) && negb (c1 =? 81) then Err EInvalidCountryCode
  else
    let? check := addressCheck compact in
    if negb (check =? 1) then Err EChecksum
    else b32_decode 4 (skipn 4 compact).

(** address/address.go:80-84: a space and four characters, eight times. *)
Fixpoint write_groups (n : nat) (noSpaces : bytes) : bytes :=
  match n with
  | O => []
  | S n' => 32 :: firstn 4 noSpaces ++ write_groups n' (skipn 4 noSpaces)
  end.

(** address/address.go:56-87.  The error of addressCheck is ignored (check = 0). *)
Definition Encode (addr : bytes) : bytes :=
  let noSpaces := str "NQ00" ++ b32_encode 4 addr in
  let check0 := match addressCheck noSpaces with Ok c => c | _ => 0 end in
  let check := w8 (98 - check0) in
  str "NQ" ++ [48 + check mod 100 / 10; 48 + check mod 10]
    ++ write_groups 8 (skipn 4 noSpaces).
