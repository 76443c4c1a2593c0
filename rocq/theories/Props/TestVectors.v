(** The repository's own unit tests, run on the model with a concrete Blake2b.  These are
    tests of the transcription, not proofs; the theorems do not depend on them, and none is
    saved ([Abort]).  Together they run every package of the repository, up to the genesis
    state of the test network (genesis/genesis_test.go; the main network is in GenesisMain.v). *)
From Coq Require Import ZArith List Bool String.
Import ListNotations.
From Verif.Model Require Import Base Beserial Wire Policy Address Nibbles Tree Account Accounts Wallet Genesis Blake2b GenesisFiles.
Open Scope Z_scope.
Notation B2 := blake2b_256.
Definition no_oob : float64 -> Z := fun _ => 0.
(** A hexadecimal number as [n] bytes. *)
Definition hex (n : nat) (z : Z) : bytes := rev (le_bytes n z).

(** RFC 7693, appendix A style: the empty message, "abc", and two blocks. *)
Goal B2 [] = hex 32 0x0e5751c026e543b2e8ab2eb06099daa1d1e5df47778f7787faab45cdf12fe3a8.
Proof. vm_compute. reflexivity. Abort.
Goal B2 (str "abc") = hex 32 0xbddd813c634239723171ef3fee98579b94964e3bb1cb3e427262c8c068d52319.
Proof. vm_compute. reflexivity. Abort.

(** tree/node_test.go *)
Definition test_leaf_prefix : nibbles :=
  [0x0;0xf;0xe;0x8;0x3;0x2;0x5;0x8;0x1;0xb;0xf;0x6;0xa;0x0;0x8;0x9;0x2;0x4;0x1;0x2;
   0xa;0xc;0xf;0xb;0x9;0x6;0x5;0x1;0xb;0x4;0x5;0x1;0xc;0x5;0x0;0x9;0x8;0x3;0x1;0xd].
Definition test_leaf_value : bytes := [0;0;0;0;5;0xdb;0xf2;0xa5;0x47].
Goal leaf_marshal test_leaf_prefix test_leaf_value
  = Ok (hex 51 0xff28306665383332353831626636613038393234313261636662393635316234353163353039383331640000000005dbf2a547).
Proof. vm_compute. reflexivity. Abort.
Goal leaf_hash B2 test_leaf_prefix test_leaf_value = Ok (hex 32 0xacd4a1f45c7f608ccc02aef3c7b0dbc7226b0e9c365fa21771df4ce9f44780e6).
Proof. vm_compute. reflexivity. Abort.

(** tree/tree_test.go *)
Definition emptyHash := hex 32 0xab29e6dc16755d0071eba349ebda225d15e4f910cb474549c47e95cb85ecc4d6.
Definition actualHash := hex 32 0xc8a459ea666e3b027dbef89c00e7600d22c0a0c7ff8051a5e9687026d027c0f5.
Definition address1 : bytes := repeat 0 20.
Definition address2 : bytes := 0x10 :: repeat 0 19.
Definition address3 : bytes := 0x12 :: repeat 0 19.
Definition account_buf (v : Z) : bytes := match WrapAccount_Marshal (Some (ABasic v)) [] with Ok (b, None) => b | _ => [] end.
(** The puts in order: what each returns and the root hash after each. *)
Fixpoint puts (l : list (bytes * bytes)) (s : state) : list (res (bool * bytes)) * state :=
  match l with
  | [] => ([], s)
  | (k, v) :: l' =>
      match PutEntry B2 s k v with
      | Ok (s', c) => let r := match Tree.Hash B2 s' with Ok h => Ok (c, h) | _ => Panic end in
                      let '(rs, s'') := puts l' s' in (r :: rs, s'')
      | _ => ([Panic], s)
      end
  end.
Goal Tree.Hash B2 new_tree = Ok emptyHash.
Proof. vm_compute. reflexivity. Abort.
Goal fst (puts [(address1, account_buf 5); (address2, account_buf 55); (address3, account_buf 55555555)] new_tree)
  = [Ok (true, hex 32 0x4644a8c8bc0b333230751e6fbcd0b49f4ebc7bb682df3a97e091115d0fe26c05);
     Ok (true, hex 32 0xf6fc7ecf89d94fa4e91a19805d36976ccd09633a95ff201981167e8c68c141dd);
     Ok (true, actualHash)].
Proof. vm_compute. reflexivity. Abort.
(** TestPMTree_InsertionOrderInvariance: three orders, with everything deleted in between *)
Definition fill (order : list Z) : list (bytes * bytes) :=
  map (fun i => if i =? 1 then (address1, account_buf 5) else if i =? 2 then (address2, account_buf 55)
                else (address3, account_buf 55555555)) order ++
  [(address1, []); (address2, []); (address3, [])].
Goal let r := fst (puts (fill [1; 2; 3] ++ fill [1; 3; 2] ++ fill [2; 1; 3]) new_tree) in
     forallb (fun x => match x with Ok (c, _) => c | _ => false end) r = true /\
     map (fun i => nth i r Panic) [2; 5; 8; 11; 14; 17]%nat
       = [Ok (true, actualHash); Ok (true, emptyHash); Ok (true, actualHash); Ok (true, emptyHash);
          Ok (true, actualHash); Ok (true, emptyHash)].
Proof. vm_compute. split; reflexivity. Abort.

(** tree/store_test.go *)
Goal map HexBytes [[]; [0]; [4; 15; 3; 0; 2]] = [Ok []; Ok (str "0"); Ok (str "4f302")].
Proof. vm_compute. reflexivity. Abort.
Goal map (fun k => HexBytes (KeyToNibbles k)) [repeat 0 20; 0x0c :: repeat 0 19; 0x12 :: 0x03 :: 0x30 :: repeat 0 17]
  = map (fun s => Ok (str s)) ["0000000000000000000000000000000000000000"; "0c00000000000000000000000000000000000000";
                               "1203300000000000000000000000000000000000"]%string.
Proof. vm_compute. reflexivity. Abort.

(** policy/policy_test.go, without the three heights that take millions of steps *)
Goal map (fun h => snd (BlockReward initial_cache h)) [1; 2; 3; 1000; 4999; 5000; 5001; 5002; 100000]
  = map Ok [440597534; 440597429; 440597324; 440492605; 440072823; 440072718; 440072613; 440072508; 430217207].
Proof. vm_compute. reflexivity. Abort.

(** address/address_test.go *)
Definition correctAddr : bytes := hex 20 0x21a934fe3d6a68bdb64447c571c88c19e39fb685.
Goal map (fun s => Decode (str s))
       ["NQ1946LK9YHVD9LBTDJ48Y2P3J4C37HRYDL5"; "NQ19 46LK 9YHV D9LB TDJ4 8Y2P 3J4C 37HR YDL5";
        "NQ20 46LK 9YHV D9LB TDJ4 8Y2P 3J4C 37HR YDL5"; "LD20 46LK 9YHV D9LB TDJ4 8Y2P 3J4C 37HR YDL5";
        "NQ20 46LK 9YHV D9LB .... 8Y2P 3J4C 37HR YDL5"; "NQ20 46LK 9YHV D9LB IIII 8Y2P 3J4C 37HR YDL";
        "NQ20 46LK 9YHV D9LB IIII 8Y2P 3J4C 37HR YDL5 A"; "                                            "]%string
  = [Ok correctAddr; Ok correctAddr; Err EChecksum; Err EInvalidCountryCode; Err EInvalidCharacter; Err EInvalidLength;
     Err EInvalidLength; Err EInvalidLength].
Proof. vm_compute. reflexivity. Abort.
(** "CyrillicCharacter": two of the letters are D0 90 in UTF-8 *)
Goal Decode (str "NQ20 " ++ [0xD0; 0x90; 0xD0; 0x90] ++ str "B 9YHV D9LB IIII 8Y2P 3J4C 37HR YDL") = Err EInvalidCharacter.
Proof. vm_compute. reflexivity. Abort.
Goal Encode correctAddr = str "NQ19 46LK 9YHV D9LB TDJ4 8Y2P 3J4C 37HR YDL5".
Proof. vm_compute. reflexivity. Abort.

(** beserial/encode_test.go, decode_test.go (the struct and string cases are in BeserialProps.v) *)
Definition s16 : bytes := [0;1;2;3;4;5;6;7;8;9;10;11;12;13;14;15].
Definition tg (s : string) : option bytes := Some (str s).
Definition both (t : ty) (v : val) (e : bytes) : Prop :=
  Marshal [] (APtr t v) = Ok (e, None) /\ UnmarshalFull e (APtr t (zero t)) = Ok (Some v).
Goal both TBool (VBool false) [0] /\ both TBool (VBool true) [1] /\ both (TNum U8) (VNum 0xCD) [0xCD].
Proof. vm_compute. repeat split; reflexivity. Abort.
Goal both (TStruct [(tg "len_tag=uint16", TSlice (TNum U8))]) (VStruct [vbytes s16]) (0 :: 16 :: s16).
Proof. vm_compute. split; reflexivity. Abort.
Goal both (TStruct [(tg "len_tag=uint16", TSlice (TNum U16))]) (VStruct [VList [VNum 0x1234; VNum 0x5678]]) [0; 2; 0x12; 0x34; 0x56; 0x78].
Proof. vm_compute. split; reflexivity. Abort.
Goal both (TArray 16 (TNum U8)) (vbytes s16) s16 /\ both (TArray 2 (TNum U16)) (VList [VNum 0x1234; VNum 0x5678]) [0x12; 0x34; 0x56; 0x78].
Proof. vm_compute. repeat split; reflexivity. Abort.
Definition t_optional : ty := TStruct [(None, TNum U8); (tg "optional", TPtr (TNum U8)); (None, TNum U8)].
Goal both t_optional (VStruct [VNum 0x10; VPtr None; VNum 0x30]) [0x10; 0; 0x30] /\
     both t_optional (VStruct [VNum 0x10; VPtr (Some (VNum 0)); VNum 0x30]) [0x10; 1; 0; 0x30].
Proof. vm_compute. repeat split; reflexivity. Abort.
(** "Custom" of both files *)
Definition customTest : codec := Codec (fun v _ => Ok (v, 4)) (fun _ b => Ok (b ++ [0x99; 0xAA], None)).
Goal Marshal [] (APtr (TStruct [(None, TNum U8); (None, TCustom customTest (TStruct [])); (None, TNum U8)])
                      (VStruct [VNum 0x11; VStruct []; VNum 0x22])) = Ok ([0x11; 0x99; 0xAA; 0x22], None) /\
     UnmarshalFull [0; 0; 0; 0] (APtr (TCustom customTest (TStruct [])) (VStruct [])) = Ok (Some (VStruct [])).
Proof. vm_compute. split; reflexivity. Abort.
(** beserial/size_test.go *)
Definition t_three : ty := TStruct [(None, TNum U8); (None, TNum U8); (None, TNum U8)].
Definition v_three : val := VStruct [VNum 0; VNum 0; VNum 0].
Goal map Size
  [APtr (TNum U8) (VNum 0);
   APtr (TStruct [(None, TNum U64); (None, TNum U32); (None, TNum U16); (None, TNum U8); (None, TNum I64); (None, TNum I32);
                  (None, TNum I16); (None, TNum I8)]) (VStruct (repeat (VNum 0) 8));
   APtr (TStruct [(tg "len_tag=uint16", TSlice (TNum U16))]) (VStruct [VList (repeat (VNum 0) 16)]);
   APtr (TStruct [(tg "len_tag=uint16", TSlice t_three)]) (VStruct [VList (repeat v_three 16)]);
   APtr (TArray 16 (TNum U16)) (VList (repeat (VNum 0) 16));
   APtr (TStruct [(None, TArray 16 t_three)]) (VStruct [VList (repeat v_three 16)]);
   APtr (TStruct [(tg "len_tag=uint8", TString)]) (VStruct [VString (str "ya yeet")]);
   APtr t_optional (VStruct [VNum 0x10; VPtr None; VNum 0x30]);
   APtr t_optional (VStruct [VNum 0x10; VPtr (Some (VNum 0)); VNum 0x30])]
  = map Ok [1; 30; 34; 50; 32; 48; 8; 3; 4].
Proof. vm_compute. reflexivity. Abort.

(** accounts/accounts_test.go, with the key of wallet/basic_test.go: the block reward, and the creation of
    a vesting contract (at the zero address, 100 out of the reward). *)
Definition test_pub : bytes := hex 32 0x2a39f666099582d659112b8c196630958095805f6b1016400030ed0b182064d1.
Definition test_address : bytes := hex 20 0xa1f5245a31b48f1f0e4839c2b1b260a89317e855.
Goal PublicKeyToAddress B2 test_pub = test_address.
Proof. vm_compute. reflexivity. Abort.
Definition zero_header (height : Z) : BlockHeader :=
  MkHeader 0 (repeat 0 32) (repeat 0 32) (repeat 0 32) (repeat 0 32) 0 height 0 0.
Definition test_block (height : Z) (txs : list (option Tx)) : Block :=
  MkBlock (zero_header height) (MkInterlink (MkBitSet 0 []) [] (repeat 0 32) []) (Some (MkBody test_address [] txs [])).
Definition createTx : ExtendedTx :=
  MkExtendedTx (repeat 0 20 ++ [0; 0; 0; 1]) test_address 0 (repeat 0 20) 1 100 0 1 4 1 [].
Goal let '(o1, s1, c1) := tree_Push B2 no_oob new_tree initial_cache (test_block 1 []) in
     let '(o2, s2, c2) := tree_Push B2 no_oob s1 c1 (test_block 2 [Some (TExtended createTx)]) in
     o1 = Ok tt /\ o2 = Ok tt /\
     tree_get_account s2 (repeat 0 20) = Ok (AVesting (MkVesting 100 (repeat 0 20) 0 1 100 100)) /\
     tree_get_account s2 test_address = Ok (ABasic (440597534 - 100 + 440597429)).
Proof. vm_compute. repeat split; reflexivity. Abort.

(** wallet/basic_test.go: the encodings (the signatures are taken from the test, Ed25519 is not computed here) *)
Definition test_basic_tx : BasicTx :=
  MkBasicTx test_pub (repeat 0 20) 420 1337 99 42
    (hex 64 0x6a6d2fad4a136a9409aeb935c62af7a356e86435829d94f8a97ddc5fc5e5e202ffedfdf7dc438cc48dd5883edc9b07a2971cafaca520cb34f00a3eb4834be60f).
Goal WrapTx_Marshal (Some (TBasic test_basic_tx)) []
  = Ok (hex 138 0x002a39f666099582d659112b8c196630958095805f6b1016400030ed0b182064d1000000000000000000000000000000000000000000000000000001a40000000000000539000000632a6a6d2fad4a136a9409aeb935c62af7a356e86435829d94f8a97ddc5fc5e5e202ffedfdf7dc438cc48dd5883edc9b07a2971cafaca520cb34f00a3eb4834be60f, None).
Proof. vm_compute. reflexivity. Abort.
Definition test_sig : bytes :=
  hex 64 0x2cf0150ce3fddd6d3d70de801a5e0744e8b3fc946a4380cc134127015e32b13580accc717c7af05e0334fe7ada1e99920e7dd1e03a45091db3986c08c977fc09.
Definition test_wallet : Basic := MkWallet (Some (repeat 0 64)) (Some test_pub) zero20.
Goal (let? (tx, err) := SignExtendedTx B2 (fun _ _ => test_sig) test_wallet
                         (MkExtendedTx [] test_address 0 (repeat 0 20) 0 1337 420 99 42 0 []) in
     WrapTx_Marshal (Some (TExtended tx)) [])
  = Ok (hex 166 0x010000a1f5245a31b48f1f0e4839c2b1b260a89317e85500000000000000000000000000000000000000000000000000000000053900000000000001a4000000632a0000612a39f666099582d659112b8c196630958095805f6b1016400030ed0b182064d1002cf0150ce3fddd6d3d70de801a5e0744e8b3fc946a4380cc134127015e32b13580accc717c7af05e0334fe7ada1e99920e7dd1e03a45091db3986c08c977fc09, None).
Proof. vm_compute. reflexivity. Abort.

(** genesis/genesis_test.go, profile "test": the embedded files decode, the accounts are inserted, the genesis
    block is applied, and the root hash is the one in its header. *)
Goal let '(o, s, c) := match openProfile test_block_bin test_accounts_bin with
                       | Ok inf => InitAccounts B2 no_oob inf new_tree initial_cache
                       | _ => (Panic, new_tree, initial_cache)
                       end in o = Ok tt.
Proof. vm_compute. reflexivity. Abort.
(** The hypotheses of C84_program_partial hold of both real profiles: empty genesis block at height 1, no address
    twice, balances adding up to the initial supply. *)
Fixpoint distinct (l : list bytes) : bool :=
  match l with [] => true | a :: l' => negb (existsb (bytes_eqb a) l') && distinct l' end.
Definition initial_supply_profile (blockBuf accountsBuf : bytes) : bool :=
  match openProfile blockBuf accountsBuf with
  | Ok p =>
      (bh_height (bl_header (g_block p)) =? 1) &&
      match bl_body (g_block p) with Some b => match bb_txs b with [] => true | _ => false end | None => false end &&
      (fold_right (fun e z => match p_account e with Some x => Balance x | None => 0 end + z) 0 (g_accounts p) =? 252000000000000) &&
      distinct (map p_address (g_accounts p))
  | _ => false
  end.
Goal initial_supply_profile test_block_bin test_accounts_bin = true.
Proof. vm_compute. reflexivity. Abort.
Goal initial_supply_profile main_block_bin main_accounts_bin = true.
Proof. vm_compute. reflexivity. Abort.
