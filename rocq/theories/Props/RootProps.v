(** C118: the root hash determines the accounts and their future.  C119: undoing a block by hand. *)
From Coq Require Import ZArith List Lia Bool.
From stdpp Require Import gmap list.
From Verif.Model Require Import Base Address Beserial Wire Policy Account Tree Accounts.
From Verif.Spec Require Import AddressSpec TreeSpec TreeHistory PolicySpec BeserialSpec WireSpec AccountSpec AccountsSpec PushSpec RulesSpec.
From Verif.Proofs Require Import BaseFacts PolicyFacts AccountFacts LedgerFacts PushFacts AccountsFacts RulesFacts.
From Verif.Props Require Import TreeProps AccountProps AccountsProps RulesProps PartyProps.
Open Scope Z_scope.

(** Two different node encodings, one of each of the two trees with these accounts, that hash to the same value. *)
Definition nodes_collide (H : bytes -> bytes) (M1 M2 : ledger) : Prop :=
  let N1 := by_path (enc_ledger M1) in let N2 := by_path (enc_ledger M2) in
  exists p1 p2, is_node N1 p1 /\ is_node N2 p2 /\
    merkle_bytes H N1 p1 <> merkle_bytes H N2 p2 /\ H (merkle_bytes H N1 p1) = H (merkle_bytes H N2 p2).

(** C118.  Two Accounts objects with the same root hash have the same account at every address, whatever their
    histories, stores and overlays, unless two different nodes of their trees collide under the hash. *)
Theorem C118_root_determines_accounts H oob s1 c1 M1 s2 c2 M2 :
  hash_fn H -> areach H oob s1 c1 -> lists s1 M1 -> areach H oob s2 c2 -> lists s2 M2 -> Hash H s1 = Hash H s2 ->
  (forall a, array 20 a -> tree_get_account s1 a = tree_get_account s2 a) \/ nodes_collide H M1 M2.
Proof.
  intros HH R1 L1 R2 L2 E.
  destruct (lists_holds H oob s1 c1 M1 HH R1 L1) as ((T1 & _) & _). destruct (lists_holds H oob s2 c2 M2 HH R2 L2) as ((T2 & _) & _).
  destruct (C19_equal_roots_equal_contents H (fun x => proj1 (HH x)) s1 _ s2 _ T1 T2 E) as [Hs|Hc]; [left|right; exact Hc].
  intros a Ha. unfold tree_get_account, GetAccount. rewrite (Hs a Ha). reflexivity.
Qed.
Print Assumptions C118_root_determines_accounts.

(** Conversely the accounts determine the root hash. *)
Theorem C118_accounts_determine_root H oob s1 c1 s2 c2 :
  hash_fn H -> areach H oob s1 c1 -> areach H oob s2 c2 ->
  (forall a, array 20 a -> tree_get_account s1 a = tree_get_account s2 a) -> Hash H s1 = Hash H s2.
Proof.
  intros HH R1 R2 Ha.
  destruct (C52_ledger_exists H oob s1 c1 HH R1) as (M & L1 & _). destruct (C52_ledger_exists H oob s2 c2 HH R2) as (N & L2 & _).
  assert (M = N) as <-.
  { apply ledger_ext; [apply L1|apply L2|]. intros a H20. specialize (Ha a H20). rewrite (proj2 L1 a H20), (proj2 L2 a H20) in Ha. congruence. }
  destruct (lists_holds H oob s1 c1 M HH R1 L1) as ((T1 & _) & _). destruct (lists_holds H oob s2 c2 M HH R2 L2) as ((T2 & _) & _).
  rewrite (C18_root_is_merkle_root H _ _ T1), (C18_root_is_merkle_root H _ _ T2). reflexivity.
Qed.
Print Assumptions C118_accounts_determine_root.

(** And the future: from equal root hashes on, the same blocks are accepted, with the same root hash after each
    of them (here: at the end of every chain). *)
Lemma chain_areach H oob s c bs s' c' : areach H oob s c -> chain H oob s c bs s' c' -> areach H oob s' c'.
Proof. intros Hr Hc. induction Hc as [|s c b bs s1 c1 s' c' Hb E Hc IH]; [exact Hr|]. apply IH. eapply areach_push; eassumption. Qed.
Theorem C118_root_determines_future H oob s1 c1 M1 s2 c2 M2 bs s1' c1' :
  hash_fn H -> areach H oob s1 c1 -> lists s1 M1 -> areach H oob s2 c2 -> lists s2 M2 -> Hash H s1 = Hash H s2 ->
  ~ nodes_collide H M1 M2 -> chain H oob s1 c1 bs s1' c1' ->
  exists s2' c2', chain H oob s2 c2 bs s2' c2' /\ Hash H s1' = Hash H s2'.
Proof.
  intros HH R1 L1 R2 L2 E Hn Hch.
  destruct (C118_root_determines_accounts H oob s1 c1 M1 s2 c2 M2 HH R1 L1 R2 L2 E) as [Ha|Hc]; [|contradiction].
  clear E Hn L1 L2 M1 M2. revert s2 c2 R2 Ha.
  induction Hch as [s c|s c b bs sm cm s' c' Hb E Hch IH]; intros s2 c2 R2 Ha.
  { exists s2, c2. split; [constructor|]. eapply C118_accounts_determine_root; eassumption. }
  destruct (tree_Push H oob s2 c2 b) as ((o2 & s2m) & c2m) eqn:E2.
  destruct (C116_only_parties_matter H oob s c s2 c2 b (Ok tt) o2 sm s2m cm c2m HH R1 R2 Hb) as (<- & Hag); [|exact E|exact E2|].
  { intros body a Eb Hp. apply Ha. eapply party_20; eassumption. }
  destruct (IH (areach_push H oob s c b (Ok tt) sm cm R1 Hb E) s2m c2m (areach_push H oob s2 c2 b (Ok tt) s2m c2m R2 Hb E2)) as (s2' & c2' & Hch2 & Eh).
  - intros a H20.
    assert (Hoff : (forall body, bl_body b = Some body -> ~ is_party H body a) -> tree_get_account sm a = tree_get_account s2m a).
    { intros Hp. rewrite (C56_only_parties H oob s c b (Ok tt) sm cm a HH R1 Hb E H20 Hp), (C56_only_parties H oob s2 c2 b (Ok tt) s2m c2m a HH R2 Hb E2 H20 Hp).
      apply Ha, H20. }
    destruct (bl_body b) as [body|]; [|apply Hoff; discriminate].
    destruct (party_dec H body a) as [Hp|Hp]; [exact (Hag body a eq_refl Hp)|]. apply Hoff. intros body' [= <-]. exact Hp.
  - exists s2', c2'. split; [econstructor; eassumption|exact Eh].
Qed.
Print Assumptions C118_root_determines_future.

(** ** C119 *)
(** PutAccount for each address of a list the account it is listed with. *)
Fixpoint put_all (H : bytes -> bytes) (s : state) (l : list (bytes * Account)) : res state :=
  match l with
  | [] => Ok s
  | (a, x) :: l' => let? s' := tree_put_account H s a (Some x) in put_all H s' l'
  end.
(** C119.  Revert is not implemented and refused blocks are not rolled back, but a caller that noted the accounts
    of the block's parties before calling Push can restore everything, in any order, whatever Push did: accepted,
    refused or panicked.  The notes may cover further addresses, and addresses may be listed repeatedly. *)
Theorem C119_restore H oob s c b o s' c' notes :
  hash_fn H -> areach H oob s c -> block_ok b -> tree_Push H oob s c b = (o, s', c') ->
  Forall (fun n => array 20 n.1 /\ tree_get_account s n.1 = Ok n.2) notes ->
  (forall body a, bl_body b = Some body -> is_party H body a -> exists x, (a, x) ∈ notes) ->
  exists s2, put_all H s' notes = Ok s2 /\ areach H oob s2 c' /\
    (forall a, array 20 a -> tree_get_account s2 a = tree_get_account s a) /\ Hash H s2 = Hash H s.
Proof.
  intros HH Hr Hb E Hn Hcov.
  destruct (C52_ledger_exists H oob s c HH Hr) as (M & HL & _).
  destruct (push_ledger H oob s c M b o s' c' HH Hr HL Hb E) as (M' & E' & HM' & HM & _ & HMs).
  assert (Hfr : forall a, (exists x, (a, x) ∈ notes) \/ acct M' a = acct M a).
  { intros a. destruct (bl_body b) as [body|] eqn:Eb.
    - destruct (party_dec H body a) as [Hp|Hp]; [left; apply (Hcov body a eq_refl Hp)|right].
      apply (push_frame H oob M c b o M' c' a E'). intros body' Eb'. rewrite Eb in Eb'. injection Eb' as <-. exact Hp.
    - right. apply (push_frame H oob M c b o M' c' a E'). intros body' Eb'. congruence. }
  assert (Hr' : areach H oob s' c') by (eapply areach_push; eassumption).
  assert (Hn' : Forall (fun n => array 20 n.1 /\ n.2 = acct M n.1) notes).
  { eapply Forall_impl; [exact Hn|]. intros (a & x) (H20 & Hx). cbn in *. split; [exact H20|].
    rewrite (tree_get H s M a HMs H20) in Hx. congruence. }
  assert (G : forall notes s' M', areach H oob s' c' -> tree_holds H s' M' -> Forall (fun n => array 20 n.1 /\ n.2 = acct M n.1) notes ->
    (forall a, (exists x, (a, x) ∈ notes) \/ acct M' a = acct M a) ->
    exists s2 M2, put_all H s' notes = Ok s2 /\ areach H oob s2 c' /\ tree_holds H s2 M2 /\ forall a, acct M2 a = acct M a).
  { clear -HH HL. induction notes as [|(a & x) notes IH]; intros s' M' Hr' HM' Hn Hfr; cbn [put_all].
    - exists s', M'. split; [reflexivity|]. split; [exact Hr'|]. split; [exact HM'|]. intros a. destruct (Hfr a) as [(x & Hx)|Hx]; [inversion Hx|exact Hx].
    - apply Forall_cons in Hn as ((H20 & Ex) & Hn). cbn in H20, Ex.
      assert (Hok : forall y, Some x = Some y -> account_ok y) by (intros y [= <-]; rewrite Ex; apply acct_ok, HL).
      destruct (tree_put H s' M' a (Some x) HM' H20 Hok) as (s1 & E1 & HM1). rewrite E1. cbn [bind].
      apply (IH s1 _ (areach_put H oob s' c' a (Some x) s1 Hr' H20 Hok E1) HM1 Hn).
      intros a'. rewrite acct_set. destruct (decide (a' = a)) as [->|Hne]; [right; cbn; exact Ex|].
      destruct (Hfr a') as [(y & Hy)|Hy]; [|right; exact Hy]. left. exists y. apply elem_of_cons in Hy as [[= ? ?]|Hy]; [contradiction|exact Hy]. }
  destruct (G notes s' M' Hr' HM' Hn' Hfr) as (s2 & M2 & Ep & Hr2 & HM2 & Hacc).
  assert (Hget : forall a, array 20 a -> tree_get_account s2 a = tree_get_account s a).
  { intros a H20. rewrite (tree_get H s2 M2 a HM2 H20), (tree_get H s M a HMs H20), Hacc. reflexivity. }
  exists s2. split; [exact Ep|]. split; [exact Hr2|]. split; [exact Hget|].
  eapply C118_accounts_determine_root; eassumption.
Qed.
Print Assumptions C119_restore.

(** ** Concrete cases *)
(** The same accounts by another history. *)
Example C118_case oob :
  let s := state_of small_accounts in let s' := state_of (rev small_accounts) in
  areach toy_hash oob s initial_cache /\ areach toy_hash oob s' initial_cache /\
  map (tree_get_account s) [addr 1; addr 2; contract_addr] = map (tree_get_account s') [addr 1; addr 2; contract_addr] /\
  Hash toy_hash s = Hash toy_hash s' /\ Hash toy_hash s <> Hash toy_hash new_tree.
Proof.
  cbv zeta. split; [apply (state_of_ok oob), small_accounts_ok|].
  split; [apply (state_of_ok oob); apply Forall_rev, small_accounts_ok|]. vm_compute. repeat split; discriminate.
Qed.
(** A block that is refused after its first transfer was applied; its parties' accounts put back. *)
Definition half_applied : list Tx := [pay 1 (addr 3) 100 0; pay 2 (addr 3) 51 0].
Definition half_notes : list (bytes * Account) := [(addr 3, ABasic 0); (addr 1, ABasic 1000); (addr 4, ABasic 0); (addr 2, ABasic 50)].
Example C119_case oob :
  areach toy_hash oob (state_of small_accounts) initial_cache /\ block_ok (transfer_block half_applied) /\
  (let '(o, s', _) := tree_Push toy_hash oob (state_of small_accounts) initial_cache (transfer_block half_applied) in
   overspends o /\ tree_get_account s' (addr 1) = Ok (ABasic 900)) /\
  Forall (fun n => array 20 n.1 /\ tree_get_account (state_of small_accounts) n.1 = Ok n.2) half_notes /\
  (forall body a, bl_body (transfer_block half_applied) = Some body -> is_party toy_hash body a -> exists x, (a, x) ∈ half_notes).
Proof.
  split; [apply (state_of_ok oob), small_accounts_ok|]. split.
  { apply transfer_block_ok; [|reflexivity].
    repeat (apply Forall_cons; split; [apply pay_ok; [lia|apply addr_ok|unfold u64; lia..]|]). apply Forall_nil. exact I. }
  split.
  { assert (T : let '(o, s', _) := tree_Push toy_hash oob (state_of small_accounts) initial_cache (transfer_block half_applied) in
      o = Err (EOverspend 50 51) /\ tree_get_account s' (addr 1) = Ok (ABasic 900)) by (vm_compute; split; reflexivity).
    destruct (tree_Push _ _ _ _ _) as ((o & s') & c'). destruct T as (-> & T). split; [|exact T].
    exists 50, 51. split; [reflexivity|lia]. }
  split.
  { repeat (apply Forall_cons; split; [split; [apply addr_ok|vm_compute; reflexivity]|]). apply Forall_nil. exact I. }
  intros body a [= <-] Hp. unfold is_party in Hp. rewrite txs_of_body in Hp.
  assert (Ha : a ∈ map fst half_notes).
  { destruct Hp as [->|(t & Hin & Hp)]; [vm_compute; do 2 right; left|].
    apply elem_of_cons in Hin as [->|Hin]; [|apply elem_of_cons in Hin as [->|Hin]; [|inversion Hin]];
      destruct Hp as [<-| <-]; apply elem_of_list_In; vm_compute; tauto. }
  apply elem_of_list_fmap in Ha as ((a' & x) & -> & Hx). exists x. exact Hx.
Qed.
