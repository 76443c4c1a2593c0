(** C113: a write to the tree is local to the path of its key. *)
From Coq Require Import ZArith List Lia Bool.
From stdpp Require Import gmap list.
From Verif.Model Require Import Base Address Nibbles Tree.
From Verif.Spec Require Import AddressSpec TreeSpec TreeHistory.
From Verif.Proofs Require Import BaseFacts NibblesFacts TreeSim TreeTrie TreeCanon TreeReach TreeLocal.
From Verif.Props Require Import TreeProps.
Open Scope Z_scope.

(** C113.  PutEntry changes the node a path leads to only if the path begins the
    key, and changes no existing node object except those the tree has there:
    all other objects, of this tree or of any other tree that shares the memory,
    keep their contents. *)
Theorem C113_write_is_local :
  forall H s M k v s' b, reach H s M -> addr20 k -> PutEntry H s k v = Ok (s', b) ->
    (forall p, ~ (p `prefix_of` nibs k) -> GetNode (sto s') p = GetNode (sto s) p) /\
    (forall l n, heap s !! l = Some n ->
       (forall p, GetNode (sto s) p = Some l -> ~ (p `prefix_of` nibs k)) ->
       heap s' !! l = Some n).
Proof.
  intros H s M k v s' b Hr Hk E. rewrite <- (nibs_key k) by apply Hk.
  eapply PutEntry_local; [apply reach_inv, Hr|exact Hk|exact E].
Qed.
Print Assumptions C113_write_is_local.

(** A write that reports no change has none: not on one node, not on one hash. *)
Theorem C113_no_change :
  forall H s M k v s', reach H s M -> addr20 k -> PutEntry H s k v = Ok (s', false) ->
    heap s' = heap s /\ forall p, GetNode (sto s') p = GetNode (sto s) p.
Proof.
  intros H s M k v s' Hr Hk E.
  destruct (PutEntry_false H s M k v s' (reach_inv H s M Hr) Hk E) as (Hg & Hh). auto.
Qed.
Print Assumptions C113_no_change.

(** For histories: the nodes off the paths of all keys written are the same
    objects with the same contents as before. *)
Theorem C113_history_is_local :
  forall H s M hist u, reach H s M -> Forall (fun kv => addr20 kv.1) hist -> run H s hist = Ok u ->
    forall p, Forall (fun kv => ~ (p `prefix_of` nibs kv.1)) hist ->
      GetNode (sto u) p = GetNode (sto s) p /\
      forall l, GetNode (sto s) p = Some l -> heap u !! l = heap s !! l.
Proof.
  intros H s M hist. revert s M. induction hist as [|(k & v) hist IH]; intros s M u Hr Hk E p Hp; cbn [run] in E.
  { injection E as <-. auto. }
  apply Forall_cons in Hk as (Hk1 & Hk2), Hp as (Hp1 & Hp2). cbn in Hk1, Hp1.
  destruct (PutEntry H s k v) as [(s1 & b)|e| |] eqn:E0; cbn [bind] in E; try discriminate E.
  destruct (C113_write_is_local _ _ _ _ _ _ _ Hr Hk1 E0) as (Hg & Hh).
  destruct (IH _ _ _ (reach_put _ _ _ _ _ _ _ Hr Hk1 E0) Hk2 E p Hp2) as (Hg2 & Hh2).
  split; [rewrite Hg2; apply Hg, Hp1|]. intros l El.
  rewrite (Hh2 l) by (rewrite Hg; assumption).
  pose proof (reach_inv _ _ _ Hr) as (_ & _ & V & (Hwf & _) & _).
  destruct (proj2 (proj2 Hwf) _ _ El) as (n & En & _). rewrite En.
  apply Hh; [exact En|]. intros q Hq. rewrite (wf_inj _ _ _ _ Hwf Hq El). exact Hp1.
Qed.
Print Assumptions C113_history_is_local.

(** What an overlay tree leaves of the tree it lies on: everything off the paths
    of the keys written, seen through the lower store (which C25 shows to be
    damaged on those paths). *)
Theorem C113_lower_nodes_untouched :
  forall H s M hist u, reach H s M -> Forall (fun kv => addr20 kv.1) hist ->
    run H (open_overlay s) hist = Ok u ->
    let lower := with_store u (sto s) in
    forall p l, GetNode (sto s) p = Some l -> Forall (fun kv => ~ (p `prefix_of` nibs kv.1)) hist ->
      GetNode (sto lower) p = Some l /\ heap lower !! l = heap s !! l.
Proof.
  intros H s M hist u Hr Hk Eu lower p l El Hp.
  destruct (C113_history_is_local _ _ _ _ _ (reach_open H s M Hr) Hk Eu p Hp) as (_ & Hh).
  split; [exact El|]. apply (Hh l). cbn. rewrite lookup_empty. exact El.
Qed.
Print Assumptions C113_lower_nodes_untouched.

(** ** Concrete case: three entries, of which two share a branch. *)
Definition lk_a : list Z := repeat 0 20.
Definition lk_b : list Z := repeat 0 19 ++ [1].
Definition lk_c : list Z := repeat 255 20.
Definition lh (b : list Z) : list Z := repeat (Z.of_nat (length b) mod 256) 32.
Definition lhist : list (list Z * list Z) := [(lk_a, [1]); (lk_b, [2]); (lk_c, [3])].

(** The hashes a tree has in the branch at a path. *)
Definition hashes_at (s : state) (p : list Z) : option (list (list Z)) :=
  match GetNode (sto s) p ≫= (fun l => heap s !! l) with
  | Some (Branch _ cs) => Some (map c_hash cs)
  | _ => None
  end.
(** A write to the third entry: the root is a branch on its path and changes,
    the branch over the other two does not. *)
Example C113_case :
  exists s s', run lh new_tree lhist = Ok s /\ reach lh s (contents lhist) /\
    PutEntry lh s lk_c (repeat 4 9) = Ok (s', true) /\ addr20 lk_c /\
    ~ (repeat 0 39 `prefix_of` nibs lk_c) /\ is_Some (GetNode (sto s) (repeat 0 39)) /\
    is_Some (hashes_at s (repeat 0 39)) /\ hashes_at s' (repeat 0 39) = hashes_at s (repeat 0 39) /\
    hashes_at s' [] <> hashes_at s [].
Proof.
  assert (Ha : forall a b, 0 <= b < 256 -> addr20 (repeat a 19 ++ [b]) \/ ~ (0 <= a < 256)).
  { intros a b Hb. destruct (decide (0 <= a < 256)) as [Ha|Ha]; [left|right; exact Ha]. split; [reflexivity|].
    apply Forall_app. split; [|apply Forall_cons; split; [exact Hb|apply Forall_nil; exact I]].
    cbn. repeat (apply Forall_cons; split; [exact Ha|]). apply Forall_nil. exact I. }
  assert (Hka : addr20 lk_a) by (destruct (Ha 0 0); [lia|assumption|lia]).
  assert (Hkb : addr20 lk_b) by (destruct (Ha 0 1); [lia|assumption|lia]).
  assert (Hkc : addr20 lk_c) by (destruct (Ha 255 255); [lia|assumption|lia]).
  assert (Hk : Forall (fun kv : list Z * list Z => addr20 kv.1) lhist).
  { unfold lhist. repeat (apply Forall_cons; split; [assumption|]). apply Forall_nil. exact I. }
  destruct (run_reach lh lhist new_tree ∅ (reach_new lh) Hk) as (s & E & Hr).
  assert (T : match run lh new_tree lhist with
              | Ok s => match PutEntry lh s lk_c (repeat 4 9) with
                        | Ok (s', b) => b && bool_decide (hashes_at s' [] <> hashes_at s []) &&
                                        bool_decide (is_Some (hashes_at s (repeat 0 39)))
                        | _ => false end
              | _ => false end = true) by (vm_compute; reflexivity).
  rewrite E in T. destruct (PutEntry lh s lk_c (repeat 4 9)) as [(s' & b)|e| |] eqn:Ep; try discriminate T.
  apply andb_true_iff in T as (T & T3). apply andb_true_iff in T as (-> & T2).
  apply bool_decide_eq_true in T2, T3.
  assert (Hoff : ~ (repeat 0 39 `prefix_of` nibs lk_c)) by (intros (x & Ex); discriminate Ex).
  exists s, s'. split; [exact E|]. split; [exact Hr|]. split; [exact Ep|]. split; [exact Hkc|].
  split; [exact Hoff|].
  destruct (C113_history_is_local lh s _ [(lk_c, repeat 4 9)] s' Hr) with (p := repeat 0 39) as (Hg & Hh).
  { apply Forall_cons. split; [exact Hkc|apply Forall_nil; exact I]. }
  { cbn [run]. rewrite Ep. reflexivity. }
  { apply Forall_cons. split; [exact Hoff|apply Forall_nil; exact I]. }
  unfold hashes_at in T3 |- * at 1 2 3. rewrite Hg.
  destruct (GetNode (sto s) (repeat 0 39)) as [l|]; [|destruct T3 as (x & Ex); discriminate Ex].
  split; [eauto|]. split; [exact T3|]. cbn. rewrite (Hh l eq_refl). split; [reflexivity|exact T2].
Qed.
