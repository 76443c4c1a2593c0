(** C112: the total allocation of a decode is linear in the input. *)
From Coq Require Import ZArith List Lia Bool String.
Import ListNotations.
From Verif.Model Require Import Base Address Beserial Wire Messages Genesis.
From Verif.Spec Require Import BeserialSpec AllocSpec.
From Verif.Proofs Require Import BaseFacts BeserialFacts AllocFacts.
Open Scope Z_scope.
Notation length := List.length.

(** Whatever the input claims and whether or not the decode succeeds: the slices
    and strings it allocates have together at most [depth] elements per byte of
    input. *)
Theorem C112_total_allocation t dst d : solid t ->
  total (allocs (snd (value t no_tags dst (DState d [])))) <= Z.of_nat (depth t) * zlen d.
Proof.
  intros Hs. pose proof (thrifty_value t Hs no_tags dst (DState d [])) as B.
  destruct (value t no_tags dst (DState d [])) as (r & s). specialize (B r s eq_refl). cbn [snd allocs data total fold_right] in *.
  pose proof (zlen_pos (data s)). destruct r; cbn [left] in B; nia.
Qed.
(** A successful decode pays for them with the bytes it reads. *)
Theorem C112_paid_by_read t dst d v s : solid t -> value t no_tags dst (DState d []) = (Ok v, s) ->
  total (allocs s) <= Z.of_nat (depth t) * (zlen d - zlen (data s)).
Proof. intros Hs E. pose proof (thrifty_value t Hs no_tags dst _ _ _ E) as B. cbn [left allocs data total fold_right] in B. lia. Qed.

(** ** The types of package wire *)
Lemma takes_num k : takes_a_byte (TNum k).
Proof.
  intros d dst v n E. cbn [Unmarshal value] in E. unfold mbind, number, mbind, pop, ret in E. cbn [data] in E.
  destruct (Z.ltb_spec (zlen d) (Z.of_nat (width k))) as [|H]; [discriminate|]. injection E as _ <-. cbn [data]. rewrite Nat2Z.id. unfold zlen in *. rewrite skipn_length.
  assert (1 <= width k)%nat by (destruct k; cbn; lia). lia.
Qed.
Lemma takes_array n : (1 <= n)%nat -> takes_a_byte (bytesN n).
Proof.
  intros Hn d dst v k E. cbn [Unmarshal value bytesN is_u8 is_custom num_kind] in E. unfold mbind, pop, ret in E. cbn [data] in E.
  destruct (Z.ltb_spec (zlen d) (Z.of_nat n)) as [|H]; [discriminate|]. injection E as _ <-. cbn [data]. rewrite Nat2Z.id. unfold zlen in *. rewrite skipn_length. lia.
Qed.
(** A struct takes a byte if its first field, without a tag, does. *)
Lemma takes_struct t fs : takes_a_byte t -> takes_a_byte (TStruct (field t :: fs)).
Proof.
  intros Ht d dst v n E. cbn [Unmarshal] in E. rewrite value_struct in E. cbn [value_fields field] in E.
  destruct (mbind _ _ (DState d [])) as (r & s) eqn:E1. destruct r as [w| | |]; try discriminate. cbn [bind] in E. injection E as -> <-.
  apply mbind_inv in E1 as [(ws & s1 & E1 & E2)|[(e & _ & E)|[(_ & E)|(_ & E)]]]; try discriminate. injection E2 as _ <-.
  apply mbind_inv in E1 as [(ts & s2 & E1 & E2)|[(e & _ & E)|[(_ & E)|(_ & E)]]]; try discriminate.
  unfold fail in E1. injection E1 as <- <-.
  apply mbind_inv in E2 as [(w1 & s3 & E2 & E3)|[(e & _ & E)|[(_ & E)|(_ & E)]]]; try discriminate.
  pose proof (takes_value t Ht _ _ _ _ E2) as L. cbn [data] in L.
  apply mbind_inv in E3 as [(w2 & s4 & E3 & E4)|[(e & _ & E)|[(_ & E)|(_ & E)]]]; try discriminate. injection E4 as _ <-.
  pose proof (adv_zlen _ _ (adv_fields _ _ _ _ _ E3)). lia.
Qed.
Lemma takes_custom c t : (forall v0 d v n, cd_unmarshal c v0 d = Ok (v, n) -> 1 <= n) -> takes_a_byte (TCustom c t).
Proof.
  intros Hc d dst v n E. cbn [Unmarshal value] in E. unfold call_unmarshal in E. cbn [data] in E.
  destruct (cd_unmarshal c dst d) as [(w & k)|e| |] eqn:Ec; try discriminate. specialize (Hc _ _ _ _ Ec).
  destruct (Z.ltb_spec k 0); [lia|]. destruct (Z.ltb_spec (zlen d) k) as [|Hk]; [discriminate|]. cbn [bind] in E. injection E as _ <-. cbn [data].
  unfold zlen in *. rewrite skipn_length. lia.
Qed.
Lemma read_count t dst d r n : Unmarshal d (APtr t dst) = (r, n) -> 0 <= n.
Proof.
  cbn [Unmarshal]. destruct (value t no_tags dst (DState d [])) as (r0 & s) eqn:E. intros H. injection H as _ <-.
  pose proof (adv_zlen _ _ (adv_value t no_tags dst _ _ _ E)) as L. cbn [data] in L. lia.
Qed.
Lemma takes_wrap_tx : takes_a_byte ty_wrap_tx.
Proof.
  apply takes_custom. intros v0 d v n E. cbn [cd_unmarshal wrap_tx_codec typed_codec] in E.
  destruct (WrapTx_Unmarshal (wrap_tx_of v0) d) as [(a & k)|e| |] eqn:Eu; try discriminate. cbn [bind] in E. injection E as _ <-.
  unfold WrapTx_Unmarshal in Eu. destruct d as [|typ d]; [discriminate|]. destruct (_ || _); [|discriminate].
  destruct (Unmarshal d (APtr (ty_tx typ) (zero (ty_tx typ)))) as (r & sub) eqn:Ed. destruct r as [w| | |]; try discriminate. cbn [bind] in Eu. injection Eu as _ <-.
  pose proof (read_count _ _ _ _ _ Ed). lia.
Qed.
Lemma takes_peer : takes_a_byte ty_peer.
Proof.
  apply takes_custom. intros v0 d v n E. cbn [cd_unmarshal peer_codec typed_codec] in E.
  destruct (PeerAddress_Unmarshal (peer_of v0) d) as [(a & k)|e| |] eqn:Eu; try discriminate. unfold PeerAddress_Unmarshal in Eu.
  destruct (Unmarshal d (APtr ty_peer_header _)) as (r & sub). destruct r as [w| | |]; try discriminate. cbn [bind] in Eu.
  destruct (if _ =? 0 then _ else _) as [x| | |]; try discriminate.
Qed.
Lemma takes_pruned : takes_a_byte ty_pruned.
Proof. apply takes_struct, takes_array. lia. Qed.
Lemma takes_blob : takes_a_byte (TSlice (TNum U8)).
Proof. intros d dst v n E. cbn in E. discriminate. Qed.
Inductive wire_type : ty -> Prop :=
| W_hash : wire_type ty_hash | W_bitset : wire_type ty_bitset | W_path : wire_type ty_path | W_proof : wire_type ty_proof
| W_account k : wire_type (ty_account k) | W_wrap_account : wire_type ty_wrap_account | W_pruned : wire_type ty_pruned
| W_tx k : wire_type (ty_tx k) | W_wrap_tx : wire_type ty_wrap_tx | W_interlink : wire_type ty_interlink | W_header : wire_type ty_header
| W_body : wire_type ty_body | W_block : wire_type ty_block | W_chunk : wire_type ty_chunk | W_staking : wire_type ty_staking
| W_netaddr : wire_type ty_netaddr | W_peer_header : wire_type ty_peer_header | W_srv : wire_type ty_peer_srv | W_peer : wire_type ty_peer
| W_accounts : wire_type ty_accounts_list | W_message k : wire_type (ty_message k).
Ltac solids := repeat first [exact takes_pruned | exact takes_wrap_tx | exact takes_peer | exact takes_blob | exact (takes_array 32 ltac:(lia))
  | exact (takes_array 20 ltac:(lia)) | exact (takes_struct _ _ (takes_num _)) | exact I | (left; reflexivity) | split | right].
(** In package wire nesting is at most two deep (byte strings in a list), so decoding
    allocates at most two elements per byte received. *)
Theorem C112_wire_types t : wire_type t -> solid t /\ (depth t <= 2)%nat.
Proof.
  intros H. destruct H; try (split; [solids|cbn; lia]; fail).
  - unfold ty_account. destruct (k =? 0); [split; [solids|cbn; lia]|]. destruct (k =? 1); split; [solids|cbn; lia| |cbn; lia]; solids.
  - unfold ty_tx. destruct (k =? 0); split; [solids|cbn; lia| |cbn; lia]; solids.
  - destruct k; split; try (cbn; lia); solids.
Qed.
Theorem C112_wire_bound t dst d : wire_type t -> total (allocs (snd (value t no_tags dst (DState d [])))) <= 2 * zlen d.
Proof.
  intros H. destruct (C112_wire_types t H) as (Hs & Hd). pose proof (C112_total_allocation t dst d Hs). pose proof (zlen_pos d). nia.
Qed.

(** ** Why elements must take a byte: a list of lists of empty structs makes the
    decoder set up N*N elements for 2N+2 bytes. *)
Definition ty_empties : ty := TStruct [tagged "len_tag=uint16" (TSlice (TStruct []))].
Definition ty_quadratic : ty := TStruct [tagged "len_tag=uint16" (TSlice ty_empties)].
Fixpoint counts (n : nat) : bytes := match n with O => [] | S n => be_put 2 (2 * Z.of_nat n) ++ counts n end.
Lemma counts_length n : length (counts n) = (2 * n)%nat.
Proof. induction n as [|n IH]; [reflexivity|]. cbn [counts]. rewrite app_length, be_put_length, IH. lia. Qed.
Lemma empties_free n : forall dsts s, exists vs, dec_n (value (TStruct []) no_tags) n dsts s = (Ok vs, s).
Proof.
  induction n as [|n IH]; intros dsts s; [exists []; reflexivity|]. cbn [dec_n]. destruct (IH (List.tl dsts) s) as (vs & E).
  assert (E1 : value (TStruct []) no_tags (hd_val dsts) s = (Ok (VStruct []), s)) by reflexivity.
  unfold mbind. rewrite E1, E. eexists. reflexivity.
Qed.
Lemma len16 n rest al : 0 <= n < 65536 -> read_len (Tags (Some U16) false) (DState (be_put 2 n ++ rest) al) = (Ok n, DState rest al).
Proof.
  intros Hn. unfold read_len. cbn [lenTag]. unfold mbind at 1. destruct (number_app U16 n rest al) as (z & E & _ & Hz). cbn [width] in E. rewrite E.
  rewrite (Hz eq_refl). change (modulus U16) with 65536. rewrite Z.mod_small by lia. cbn [signed andb].
  replace (maxInt <? n) with false by (symmetry; apply Z.ltb_ge; unfold maxInt; lia). reflexivity.
Qed.
Lemma slice16 t n dst rest al : 0 <= n < 65536 -> is_u8 t = false -> n <= zlen rest ->
  value (TStruct [tagged "len_tag=uint16" (TSlice t)]) no_tags dst (DState (be_put 2 n ++ rest) al) =
  match dec_n (value t no_tags) (Z.to_nat n) (repeat (zero t) (Z.to_nat n)) (DState rest (al ++ [(n, zlen rest)])) with
  | (Ok vs, s) => (Ok (VStruct [VList vs]), s)
  | (Err e, s) => (Err e, s) | (Panic, s) => (Panic, s) | (OutOfFuel, s) => (OutOfFuel, s)
  end.
Proof.
  intros Hn Ht Hl. rewrite value_struct. cbn [value_fields tagged]. unfold mbind at 1 2. unfold fail.
  replace (field_tags (Some (str "len_tag=uint16"))) with (Ok (Tags (Some U16) false)) by reflexivity. unfold mbind at 1. cbn [value]. unfold mbind at 1. rewrite (len16 n rest al Hn), Ht.
  cbn [data]. replace (zlen rest <? n) with false by (symmetry; apply Z.ltb_ge; lia). unfold mbind at 1, alloc_elems. cbn [data allocs]. unfold mbind at 1.
  destruct (dec_n (value t no_tags) (Z.to_nat n) (repeat (zero t) (Z.to_nat n)) (DState rest (al ++ [(n, zlen rest)]))) as ([vs|e| |] & s); reflexivity.
Qed.
Lemma inner_total n : Z.of_nat n <= 32768 -> forall dsts al, exists vs al', dec_n (value ty_empties no_tags) n dsts (DState (counts n) al) = (Ok vs, DState [] (al ++ al')) /\
  total al' = Z.of_nat n * (Z.of_nat n - 1).
Proof.
  induction n as [|n IH]; intros Hn dsts al; [exists [], []; rewrite app_nil_r; split; reflexivity|]. cbn [dec_n counts]. unfold mbind at 1. unfold ty_empties at 1.
  rewrite slice16; [|lia|reflexivity|unfold zlen; rewrite counts_length; lia].
  destruct (empties_free (Z.to_nat (2 * Z.of_nat n)) (repeat (zero (TStruct [])) (Z.to_nat (2 * Z.of_nat n))) (DState (counts n) (al ++ [(2 * Z.of_nat n, zlen (counts n))]))) as (ws & ->).
  destruct (IH ltac:(lia) (List.tl dsts) (al ++ [(2 * Z.of_nat n, zlen (counts n))])) as (vs & al' & E & T). unfold mbind at 1. rewrite E.
  exists (VStruct [VList ws] :: vs), ([(2 * Z.of_nat n, zlen (counts n))] ++ al'). split; [rewrite app_assoc; reflexivity|].
  rewrite total_app, total_one, T. lia.
Qed.
Theorem C112_empty_elements_refuted (N : nat) : Z.of_nat N <= 32768 ->
  exists d dst v s, zlen d = 2 * Z.of_nat N + 2 /\ value ty_quadratic no_tags dst (DState d []) = (Ok v, s) /\
    total (allocs s) = Z.of_nat N * Z.of_nat N.
Proof.
  intros HN. exists (be_put 2 (Z.of_nat N) ++ counts N), VOther.
  destruct (inner_total N HN (repeat (zero ty_empties) N) [(Z.of_nat N, zlen (counts N))]) as (vs & al & E & T).
  eexists _, _. split; [|split].
  - unfold zlen. rewrite app_length, be_put_length, counts_length. lia.
  - unfold ty_quadratic. rewrite slice16; [|lia|reflexivity|unfold zlen; rewrite counts_length; lia]. rewrite Nat2Z.id. cbn [app]. rewrite E. reflexivity.
  - cbn [allocs]. change (total ([(Z.of_nat N, zlen (counts N))] ++ al) = Z.of_nat N * Z.of_nat N). rewrite total_app, total_one, T. nia.
Qed.

(** Not vacuous: a GetBlocks message that claims three hashes but does not have the
    first, and a list of two strings. *)
Example C112_example :
  let d := be_put 2 3 ++ [9; 9; 9] in
  value (ty_message KGetBlocks) no_tags (zero (ty_message KGetBlocks)) (DState d []) = (Err EUnexpectedEOF, DState [9; 9; 9] [(3, 3)]) /\
  value (TStruct [tagged "len_tag=uint16" (TSlice (TStruct [tagged "len_tag=uint8" TString]))]) no_tags VOther
    (DState (be_put 2 2 ++ [3; 65; 66; 67; 1; 68]) []) = 
    (Ok (VStruct [VList [VStruct [VString [65; 66; 67]]; VStruct [VString [68]]]]), DState [] [(2, 6); (3, 5); (1, 1)]).
Proof. split; reflexivity. Qed.
