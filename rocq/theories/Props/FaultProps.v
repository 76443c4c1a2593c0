(** Property C94: the error of a refused block names a fault of the block, and what the block leaves behind. *)
From Coq Require Import ZArith List Lia Bool.
From stdpp Require Import gmap list.
From Verif.Model Require Import Base Address Beserial Wire Policy Account Tree Accounts.
From Verif.Spec Require Import AddressSpec TreeSpec TreeHistory PolicySpec BeserialSpec WireSpec AccountSpec AccountsSpec RulesSpec FaultSpec.
From Verif.Proofs Require Import BaseFacts AccountFacts LedgerFacts PushFacts AccountsFacts RulesFacts ErrorFacts FaultFacts.
From Verif.Props Require Import TreeProps WireProps AccountProps AccountsProps PushProps.
Open Scope Z_scope.

Theorem C94_names_a_fault H oob s c M b e s' c' :
  hash_fn H -> areach H oob s c -> lists s M -> block_ok b ->
  tree_Push H oob s c b = (Err e, s', c') ->
  exists body M', bl_body b = Some body /\ lists s' M' /\ refused H oob M (bh_height (bl_header b)) body e M'.
Proof.
  intros HH Hr HL Hb E. destruct (push_ledger H oob s c M b (Err e) s' c' HH Hr HL Hb E) as (M' & E' & HM' & HM & Hc & _).
  destruct (bl_body b) as [body|] eqn:Eb.
  - exists body, M'. split; [reflexivity|]. split; [exact (holds_lists H s' M' HM')|]. exact (push_refused H oob HH M c b body e M' c' HM Hc Hb Eb E').
  - unfold ledger_Push, Push in E'. rewrite Eb in E'. discriminate E'.
Qed.
Print Assumptions C94_names_a_fault.

(** The amounts of an overspending error are those of one transaction of the block, after the debits of those before
    it; these debits remain, and nothing else happened. *)
Theorem C94_overspend H oob s c M b available spend s' c' :
  hash_fn H -> areach H oob s c -> lists s M -> block_ok b ->
  tree_Push H oob s c b = (Err (EOverspend available spend), s', c') ->
  exists body pre t post, bl_body b = Some body /\ txs_of body = pre ++ t :: post /\
    let x := after_debits H M pre (tx_sender H t) in
    available = FaultSpec.available oob x (bh_height (bl_header b)) /\ spend = wanted x t /\ available < spend /\
    forall a, array 20 a -> tree_get_account s' a = Ok (after_debits H M pre a).
Proof.
  intros HH Hr HL Hb E. destruct (C94_names_a_fault H oob s c M b _ s' c' HH Hr HL Hb E) as (body & M' & Eb & (_ & HL') & Hf).
  assert (Hd : forall a b, ~ decode_error (EOverspend a b)).
  { intros a0 b0 Hd. unfold decode_error in Hd. repeat (apply elem_of_cons in Hd as [Hd|Hd]; [discriminate Hd|]). inversion Hd. }
  exists body. inversion Hf as [| pre t post e M0 Et Hre HM0 | | pre y post e M0 Et Hcr Hre HM0 | | | |]; subst.
  - exists pre, t, post. split; [exact Eb|]. split; [exact Et|]. cbv zeta. unfold refuses in Hre.
    destruct (Z.ltb_spec (FaultSpec.available oob (after_debits H M pre (tx_sender H t)) (bh_height (bl_header b))) (wanted (after_debits H M pre (tx_sender H t)) t)) as [Hlt|_].
    + injection Hre as -> ->. split; [reflexivity|]. split; [reflexivity|]. split; [exact Hlt|]. intros a Ha. rewrite HL', HM0 by exact Ha. reflexivity.
    + exfalso. destruct Hre as (y & -> & Hp). unfold proof_fault in Hp. destruct (after_debits H M pre (tx_sender H (TExtended y))) as [v|v|k]; [exact Hp| |].
      * destruct Hp as [(Hp & _)|(Hp & _)]; [discriminate Hp|exact (Hd _ _ Hp)].
      * destruct (x_proof y) as [|z d]; [discriminate Hp|].
        destruct z as [|z|z]; try discriminate Hp.
        -- destruct z as [z|z|]; try discriminate Hp; [destruct z; try discriminate Hp|destruct z; try discriminate Hp|].
           ++ destruct (_ <=? _); [discriminate Hp|]. destruct Hp as [(Hp & _)|(Hp & _)]; [discriminate Hp|exact (Hd _ _ Hp)].
           ++ destruct Hp as [(p & rest & _ & _ & Hp)|(Hp & _)]; [|exact (Hd _ _ Hp)]. destruct (bool_decide _); [destruct Hp as (Hp & _)|]; discriminate Hp.
           ++ destruct (_ <? _); [discriminate Hp|]. destruct Hp as [(alg & depth & root & pre' & rest & _ & _ & _ & _ & _ & Hp)|(Hp & _)]; [|exact (Hd _ _ Hp)].
              destruct (bool_decide _); [destruct Hp as (Hp & _)|]; discriminate Hp.
  - exfalso. unfold creation_refused in Hre. destruct (_ =? _); [discriminate Hre|]. destruct (_ =? _); [destruct Hre as (Hre & _); discriminate Hre|].
    destruct (_ =? _); [|discriminate Hre]. destruct Hre as [(_ & Hre)|(_ & _ & Hre)]; [exact (Hd _ _ Hre)|discriminate Hre].
Qed.
Print Assumptions C94_overspend.
(** Blocks with each of the eight kinds of faults: the errors, and the accounts 1, 2, 77.. and 200.. left behind. *)
Definition new_with (sender_type recipient_type flags value : Z) : Tx :=
  TExtended (MkExtendedTx (addr 2 ++ be 4 1000) (addr 1) sender_type (repeat 77 20) recipient_type value 0 1 42 flags []).
Example C94_example oob :
  let left := AHTLC (MkHTLC 0 (addr 1) (addr 2) (MkHash 3 (repeat 9 32)) 1 1000 500) in
  let htlc v := AHTLC (MkHTLC v (addr 1) (addr 2) (MkHash 3 (repeat 9 32)) 1 1000 500) in
  let push txs pruned miner :=
    let '(o, s', _) := tree_Push toy_hash oob (state_of small_accounts) initial_cache (AccountsProps.block_of 1 (body_of miner txs pruned)) in
    (o, map (fun a => match tree_get_account s' a with Ok x => x | _ => ABasic (-1) end) [addr 1; addr 2; repeat 77 20; contract_addr]) in
  areach toy_hash oob (state_of small_accounts) initial_cache /\ lists (state_of small_accounts) (ledger_of small_accounts) /\
  push [pay 1 (addr 2) 100 5; new_with 2 1 1 1] [] (addr 4) = (Err (EAccountTypeMismatch 2 0), [ABasic 895; ABasic 50; ABasic 0; htlc 500]) /\
  push [pay 1 (addr 2) 100 5; pay 2 (addr 3) 51 0] [] (addr 4) = (Err (EOverspend 50 51), [ABasic 895; ABasic 50; ABasic 0; htlc 500]) /\
  push [pay 1 (addr 2) 100 5; new_with 0 1 0 10] [] (addr 4) = (Err (EAccountTypeMismatch 1 0), [ABasic 885; ABasic 150; ABasic 0; htlc 500]) /\
  push [pay 1 (addr 2) 100 5; new_with 0 3 1 10] [] (addr 4) = (Err (ECreateBadType (repeat 77 20) 3), [ABasic 885; ABasic 150; ABasic 10; htlc 500]) /\
  push [claim 500 0] [] (addr 4) = (Err (EPruneMissing contract_addr), [ABasic 1000; ABasic 50; ABasic 0; left]) /\
  push [claim 500 0] [MkPruned contract_addr (Some (htlc 1))] (addr 4) = (Err (EPruneAltered contract_addr), [ABasic 1000; ABasic 50; ABasic 0; left]) /\
  push [claim 500 0] [MkPruned (addr 1) None; MkPruned contract_addr (Some left)] (addr 4) = (Err (EPruneEarly [addr 1]), [ABasic 1000; ABasic 50; ABasic 0; ABasic 0]) /\
  push [pay 1 (addr 2) 100 5] [] contract_addr = (Err (EAccountTypeMismatch 0 2), [ABasic 895; ABasic 150; ABasic 0; htlc 500]).
Proof.
  cbv zeta. destruct (state_of_ok oob small_accounts small_accounts_ok) as (Hr & HL). split; [exact Hr|]. split; [exact HL|].
  vm_compute. repeat split; reflexivity.
Qed.
