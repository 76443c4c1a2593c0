(** The program of cmd/gimiq on the files that are in the repository, with the hash function it imports.

    C84 for the real profiles: [main_block_bin], [main_accounts_bin], ... (Model/GenesisFiles.v) are the bytes of
    genesis/files/main.block.bin etc., [blake2b_256] (Model/Blake2b.v) is Blake2b-256. *)
From Coq Require Import ZArith List Lia Bool.
From stdpp Require Import gmap list sorting.
From Verif.Model Require Import Base Beserial Wire Policy Tree Account Accounts Genesis Blake2b GenesisFiles.
From Verif.Spec Require Import PolicySpec WireSpec AccountSpec TreeSpec AccountsSpec GenesisSpec RulesSpec.
From Verif.Proofs Require Import BaseFacts LedgerFacts HashFacts.
From Verif.Props Require Import WireProps AccountProps AccountsProps GenesisProps RulesProps.
Open Scope Z_scope.

(** ** The sum over a list of accounts with distinct addresses *)
Definition balance_of (p : GenesisAccount) : Z := match p_account p with Some x => Balance x | None => 0 end.
Lemma total_perm l1 l2 : l1 ≡ₚ l2 -> foldr Z.add 0 l1 = foldr Z.add 0 l2.
Proof. intros Hp. induction Hp; cbn; lia. Qed.
Lemma total_insert M a x : M !! a = None -> total (<[a := x]> M) = Balance x + total M.
Proof.
  intros Hn. unfold total. rewrite (total_perm _ (map (fun kv : bytes * Account => Balance kv.2) ((a, x) :: map_to_list M))); [reflexivity|].
  apply Permutation_map, map_to_list_insert, Hn.
Qed.
Lemma total_put M a x : M !! a = None -> total (set_acct M a (Some x)) = Balance x + total M.
Proof.
  intros Hn. unfold set_acct. change (default (ABasic 0) (Some x)) with x. cbv zeta. destruct (decide (x = ABasic 0)) as [->|Hx].
  - rewrite delete_notin by exact Hn. reflexivity.
  - apply total_insert, Hn.
Qed.
Definition put_list (M : ledger) (l : list GenesisAccount) : ledger := foldl (fun M p => set_acct M (p_address p) (p_account p)) M l.
Lemma listed_from l a : forall r, foldl (fun r p => if decide (p_address p = a) then Some (p_account p) else r) r l =
  match listed l a with Some x => Some x | None => r end.
Proof.
  unfold listed. induction l as [|p l IH]; intros r; cbn [foldl]; [reflexivity|].
  destruct (decide (p_address p = a)); rewrite (IH (Some _)) || rewrite IH; [|reflexivity].
  destruct (foldl _ None l); reflexivity.
Qed.
Lemma put_list_spec l : Forall pruned_ok l -> forall M, ledger_ok M ->
  ledger_ok (put_list M l) /\ forall a, acct (put_list M l) a = overwritten M l a.
Proof.
  intros Hl. induction Hl as [|p l (Ha & x & Ex & Hx) _ IH]; intros M HM; cbn [put_list foldl].
  - split; [exact HM|]. reflexivity.
  - assert (HM1 : ledger_ok (set_acct M (p_address p) (p_account p))).
    { apply ledger_ok_set; [exact HM|exact Ha|]. intros y Ey. rewrite Ex in Ey. injection Ey as <-. exact Hx. }
    destruct (IH _ HM1) as (I1 & I2). split; [exact I1|]. intros a. unfold put_list in I2. rewrite I2. unfold overwritten.
    unfold listed at 2. cbn [foldl]. rewrite listed_from. destruct (listed l a) as [[y|]|]; try reflexivity.
    rewrite acct_set. destruct (decide (a = p_address p)) as [->|Hne].
    + rewrite decide_True by reflexivity. rewrite Ex. reflexivity.
    + rewrite decide_False by congruence. reflexivity.
Qed.
Lemma put_list_total l : Forall pruned_ok l -> NoDup (map p_address l) -> forall M, (forall a, a ∈ map p_address l -> M !! a = None) ->
  total (put_list M l) = total M + AccountsSpec.sum (map balance_of l).
Proof.
  intros Hl. induction Hl as [|p l (Ha & x & Ex & Hx) _ IH]; intros Hd M Hn; cbn [put_list foldl map]; unfold AccountsSpec.sum; cbn [foldr].
  - cbn [foldr]. lia.
  - cbn [map] in Hd, Hn. apply NoDup_cons in Hd as (Hp & Hd). unfold put_list in IH. rewrite IH; [|exact Hd|].
    + unfold balance_of at 2. rewrite Ex. rewrite (total_put M _ x) by (apply Hn; constructor). unfold AccountsSpec.sum. lia.
    + intros a Hin. assert (a <> p_address p) by (intros ->; contradiction).
      unfold set_acct. destruct (decide _); [rewrite lookup_delete_ne by congruence|rewrite lookup_insert_ne by congruence]; apply Hn; now constructor.
Qed.

(** C84, with a readable condition on the profile: no address twice, balances adding up to the initial supply. *)
Theorem C84_profile_partial H oob blockBuf accountsBuf archive n k s' c' p body0 M' :
  hash_fn H -> bytes_ok blockBuf -> bytes_ok accountsBuf -> Forall file_ok archive ->
  gimiq H oob blockBuf accountsBuf archive = (Ok (n, k), s', c') ->
  openProfile blockBuf accountsBuf = Ok p ->
  NoDup (map p_address (g_accounts p)) -> AccountsSpec.sum (map balance_of (g_accounts p)) = 252000000000000 ->
  bh_height (bl_header (g_block p)) = 1 -> bl_body (g_block p) = Some body0 -> bb_txs body0 = [] ->
  (forall i buf b, nth_error archive (S i) = Some (File buf) -> decode_block buf = Ok (b, zlen buf) ->
     bh_height (bl_header b) = 2 + Z.of_nat i /\ forall body t, bl_body b = Some body -> t ∈ txs_of body -> fee_paid t) ->
  lists s' M' ->
  total M' = supply_after_spec (1 + n).
Proof.
  intros HH Hb Ha Hf E Ep Hd Hs Hh E0 Et Hall HL.
  assert (Hp : Forall pruned_ok (g_accounts p)).
  { destruct (C72_profile_accepted _ _ Hb Ha) as [(e & X)|[(X & _)|(p' & bs & ds & X & _ & Hp & _)]]; rewrite Ep in X; try discriminate X.
    injection X as <-. exact Hp. }
  destruct (put_list_spec _ Hp ∅ ledger_ok_empty) as (HM1 & A1).
  eapply (C84_program_partial H oob blockBuf accountsBuf archive n k s' c' p body0 (put_list ∅ (g_accounts p)) M'); try eassumption.
  rewrite put_list_total; [|exact Hp|exact Hd|intros; apply lookup_empty]. unfold total at 1. rewrite map_to_list_empty. cbn [map foldr]. lia.
Qed.
Print Assumptions C84_profile_partial.

(** ** The two profiles of the repository *)
(** A plain reader of the file format, to name the contents of the files. *)
Definition number (b : bytes) : Z := foldl (fun z x => 256 * z + x) 0 b.
Fixpoint read_accounts (n : nat) (b : bytes) : list GenesisAccount :=
  match n with
  | O => []
  | S n =>
      let addr := firstn 20 b in
      let b := skipn 20 b in
      let value := number (firstn 8 (skipn 1 b)) in
      match b with
      | 0 :: _ => MkPruned addr (Some (ABasic value)) :: read_accounts n (skipn 9 b)
      | _ =>
          MkPruned addr (Some (AVesting (MkVesting value (firstn 20 (skipn 9 b)) (number (firstn 4 (skipn 29 b))) (number (firstn 4 (skipn 33 b)))
                                           (number (firstn 8 (skipn 37 b))) (number (firstn 8 (skipn 45 b)))))) :: read_accounts n (skipn 53 b)
      end
  end.
Definition file_accounts (buf : bytes) : list GenesisAccount := read_accounts (Z.to_nat (number (firstn 2 buf))) (skipn 2 buf).
Definition file_header (buf : bytes) : BlockHeader :=
  MkHeader (number (firstn 2 buf)) (firstn 32 (skipn 2 buf)) (firstn 32 (skipn 34 buf)) (firstn 32 (skipn 66 buf)) (firstn 32 (skipn 98 buf))
    (number (firstn 4 (skipn 130 buf))) (number (firstn 4 (skipn 134 buf))) (number (firstn 4 (skipn 138 buf))) (number (firstn 4 (skipn 142 buf))).
Definition file_body (buf : bytes) : BlockBody := MkBody (firstn 20 (skipn 148 buf)) (firstn (length buf - 173) (skipn 169 buf)) [] [].

Definition below (z n : Z) : bool := (0 <=? z) && (z <? n).
Definition array_b (n : nat) (b : bytes) : bool := (length b =? n)%nat && bytes_okb b.
Definition account_b (p : GenesisAccount) : bool :=
  array_b 20 (p_address p) &&
  match p_account p with
  | Some (ABasic v) => below v (2 ^ 64)
  | Some (AVesting c) => below (v_value c) (2 ^ 64) && array_b 20 (v_owner c) && below (v_start c) (2 ^ 32) && below (v_step_blocks c) (2 ^ 32) &&
                         below (v_step_amount c) (2 ^ 64) && below (v_total c) (2 ^ 64)
  | _ => false
  end.
Fixpoint increasing (l : list Z) : bool :=
  match l with x :: (y :: _) as l' => (x <? y) && increasing l' | _ => true end.
Definition header_b (h : BlockHeader) : bool :=
  below (bh_version h) (2 ^ 16) && array_b 32 (bh_prev h) && array_b 32 (bh_interlink h) && array_b 32 (bh_body h) && array_b 32 (bh_accounts h) &&
  below (bh_nbits h) (2 ^ 32) && below (bh_height h) (2 ^ 32) && below (bh_timestamp h) (2 ^ 32) && below (bh_nonce h) (2 ^ 32).
Definition checks (blockBuf accountsBuf : bytes) : bool :=
  let h := file_header blockBuf in
  let body := file_body blockBuf in
  let l := file_accounts accountsBuf in
  bytes_eqb (block_bytes h (MkBitSet 0 []) [] (Some body)) blockBuf && bytes_eqb (accounts_bytes l) accountsBuf &&
  header_b h && (bh_height h =? 1) && array_b 20 (bb_miner body) && bytes_okb (bb_extra body) && (zlen (bb_extra body) <? 2 ^ 8) &&
  (zlen l <? 2 ^ 16) && forallb account_b l && increasing (merge_sort Z.le (map (fun p => number (p_address p)) l)) &&
  (AccountsSpec.sum (map balance_of l) =? 252000000000000).
Lemma below_ok z n : below z n = true -> 0 <= z < n.
Proof. unfold below. intros E. apply andb_true_iff in E as (E1 & E2). lia. Qed.
Lemma array_b_ok n b : array_b n b = true -> array n b.
Proof. unfold array_b. intros E. apply andb_true_iff in E as (E1 & E2). split; [now apply Nat.eqb_eq|now apply bytes_okb_spec]. Qed.
Lemma account_b_ok p : account_b p = true -> pruned_ok p.
Proof.
  unfold account_b, pruned_ok. intros E. apply andb_true_iff in E as (E1 & E2). split; [apply array_b_ok, E1|].
  destruct (p_account p) as [[v|c|h]|]; try discriminate E2; (eexists; split; [reflexivity|]); cbn [account_ok].
  - apply below_ok, E2.
  - repeat match type of E2 with (_ && _) = true => apply andb_true_iff in E2 as (E2 & ?) end. repeat match goal with |- _ /\ _ => split end; first [apply below_ok; assumption|apply array_b_ok; assumption].
Qed.
Lemma header_b_ok h : header_b h = true -> header_ok h.
Proof.
  unfold header_b, header_ok. intros E. repeat match type of E with (_ && _) = true => apply andb_true_iff in E as (E & ?) end.
  repeat match goal with |- _ /\ _ => split end; first [apply below_ok; assumption|apply array_b_ok; assumption].
Qed.
Lemma increasing_above l : forall x, increasing (x :: l) = true -> forall y, y ∈ l -> x < y.
Proof.
  induction l as [|z l IH]; intros x E y Hy; [inversion Hy|]. cbn [increasing] in E. apply andb_true_iff in E as (E1 & E2).
  apply elem_of_cons in Hy as [->|Hy]; [lia|]. specialize (IH z E2 y Hy). lia.
Qed.
Lemma increasing_NoDup l : increasing l = true -> NoDup l.
Proof.
  induction l as [|x l IH]; intros E; [constructor|]. apply NoDup_cons. split.
  - intros Hx. pose proof (increasing_above l x E x Hx). lia.
  - apply IH. destruct l as [|y l]; [reflexivity|]. cbn [increasing] in E |- *. now apply andb_true_iff in E as (_ & E).
Qed.
Lemma checked blockBuf accountsBuf : checks blockBuf accountsBuf = true -> bytes_okb blockBuf = true -> bytes_okb accountsBuf = true ->
  exists p body, openProfile blockBuf accountsBuf = Ok p /\ bytes_ok blockBuf /\ bytes_ok accountsBuf /\
    NoDup (map p_address (g_accounts p)) /\ AccountsSpec.sum (map balance_of (g_accounts p)) = 252000000000000 /\
    bh_height (bl_header (g_block p)) = 1 /\ bl_body (g_block p) = Some body /\ bb_txs body = [] /\ g_accounts p = file_accounts accountsBuf.
Proof.
  unfold checks. cbv zeta. generalize (file_accounts accountsBuf) as l. intros l E Hb Ha. repeat match type of E with (_ && _) = true => apply andb_true_iff in E as (E & ?) end.
  repeat match goal with X : bytes_eqb _ _ = true |- _ => apply bytes_eqb_eq in X end.
  destruct (C72_profile_decodes (file_header blockBuf) (MkBitSet 0 []) [] (Some (file_body blockBuf)) l) as (p & Ep & E1 & E2 & E3).
  - apply header_b_ok; assumption.
  - split; [|split; [constructor|reflexivity]]. split; [cbn; lia|]. split; [constructor|reflexivity].
  - intros b [= <-]. split; [apply array_b_ok; assumption|]. split; [apply bytes_okb_spec; assumption|]. split; [now apply Z.ltb_lt|].
    split; [reflexivity|]. split; [constructor|]. split; [reflexivity|constructor].
  - apply Forall_forall. intros q Hq. apply account_b_ok. eapply forallb_forall; [eassumption|]. now apply elem_of_list_In.
  - now apply Z.ltb_lt.
  - exists p, (file_body blockBuf).
    repeat match goal with X : _ = blockBuf |- _ => rewrite X in Ep | X : _ = accountsBuf |- _ => rewrite X in Ep end.
    rewrite E1, E3. split; [exact Ep|]. split; [now apply bytes_okb_spec|]. split; [now apply bytes_okb_spec|]. split.
    + apply (NoDup_fmap_1 number). unfold fmap, list_fmap. fold (@map bytes Z). 
      assert (Hn : NoDup (map (fun q => number (p_address q)) l)).
      { rewrite <- (merge_sort_Permutation Z.le). apply increasing_NoDup. assumption. }
      rewrite <- (map_map p_address number) in Hn. exact Hn.
    + split; [now apply Z.eqb_eq|]. split; [now apply Z.eqb_eq|]. split; [exact E2|]. split; reflexivity.
Qed.
Lemma main_checks : checks main_block_bin main_accounts_bin = true.
Proof. vm_compute. reflexivity. Qed.
Lemma main_bytes : bytes_okb main_block_bin && bytes_okb main_accounts_bin = true.
Proof. vm_compute. reflexivity. Qed.
Lemma test_checks : checks test_block_bin test_accounts_bin = true.
Proof. vm_compute. reflexivity. Qed.
Lemma test_bytes : bytes_okb test_block_bin && bytes_okb test_accounts_bin = true.
Proof. vm_compute. reflexivity. Qed.

(** The archive holds, after its first entry, blocks of the heights 2, 3, ... whose transactions pay their fees. *)
Definition paying_archive (archive : list entry) : Prop :=
  Forall file_ok archive /\
  forall i buf b, nth_error archive (S i) = Some (File buf) -> decode_block buf = Ok (b, zlen buf) ->
    bh_height (bl_header b) = 2 + Z.of_nat i /\ forall body t, bl_body b = Some body -> t ∈ txs_of body -> fee_paid t.
Lemma replay_supply blockBuf accountsBuf oob archive n k s' c' M' :
  checks blockBuf accountsBuf = true -> bytes_okb blockBuf && bytes_okb accountsBuf = true -> paying_archive archive ->
  gimiq blake2b_256 oob blockBuf accountsBuf archive = (Ok (n, k), s', c') -> lists s' M' ->
  total M' = supply_after_spec (1 + n).
Proof.
  intros Hc Hb (Hf & Hall) E HL. apply andb_true_iff in Hb as (Hb & Ha).
  destruct (checked _ _ Hc Hb Ha) as (p & body & Ep & Hb' & Ha' & Hd & Hs & Hh & E0 & Et & _).
  exact (C84_profile_partial blake2b_256 oob blockBuf accountsBuf archive n k s' c' p body M' blake2b_is_hash Hb' Ha' Hf E Ep Hd Hs Hh E0 Et Hall HL).
Qed.
(** Replaying blocks on the main network's (the test network's) profile ends with the supply of the last block. *)
Theorem C84_main_network_partial oob archive n k s' c' M' : paying_archive archive ->
  gimiq blake2b_256 oob main_block_bin main_accounts_bin archive = (Ok (n, k), s', c') -> lists s' M' ->
  total M' = supply_after_spec (1 + n).
Proof. exact (replay_supply main_block_bin main_accounts_bin oob archive n k s' c' M' main_checks main_bytes). Qed.
Print Assumptions C84_main_network_partial.
Theorem C84_test_network_partial oob archive n k s' c' M' : paying_archive archive ->
  gimiq blake2b_256 oob test_block_bin test_accounts_bin archive = (Ok (n, k), s', c') -> lists s' M' ->
  total M' = supply_after_spec (1 + n).
Proof. exact (replay_supply test_block_bin test_accounts_bin oob archive n k s' c' M' test_checks test_bytes). Qed.
Print Assumptions C84_test_network_partial.
