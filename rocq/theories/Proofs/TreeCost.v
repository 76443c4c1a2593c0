(** How many nodes a trie has, and how many node objects a write creates. *)
From Coq Require Import ZArith List Lia Bool.
From stdpp Require Import gmap list.
From Verif.Model Require Import Base Address Nibbles Tree.
From Verif.Spec Require Import AddressSpec TreeSpec TreeHistory.
From Verif.Proofs Require Import BaseFacts NibblesFacts TreeSim TreeTrie TreeCanon TreeReach.
Open Scope Z_scope.

(** ** Counting branchings *)
Lemma has_dec N r : has N r \/ ~ has N r.
Proof.
  destruct (decide (below N r = ∅)) as [E|E].
  - right. intros Hh. apply has_below in Hh. contradiction.
  - left. apply has_below, E.
Qed.

(** The longest prefix of [k] that some entry begins with. *)
Lemma longest_shared N (k : list Z) : N <> ∅ ->
  exists q, q `prefix_of` k /\ has N q /\ forall p, p `prefix_of` k -> has N p -> p `prefix_of` q.
Proof.
  intros Hne. assert (H0 : has N []).
  { apply map_choose in Hne as (k0 & v0 & E). exists k0, v0. split; [exact E|apply prefix_nil]. }
  induction k as [|d k IH] using rev_ind.
  - exists []. split; [reflexivity|]. split; [exact H0|]. auto.
  - destruct (has_dec N (k ++ [d])) as [Hh|Hh].
    + exists (k ++ [d]). auto.
    + destruct IH as (q & Hq & Hhq & Hmax). exists q.
      split; [etransitivity; [exact Hq|eexists; reflexivity]|]. split; [exact Hhq|].
      intros p Hp Hhp. apply pre_snoc_inv in Hp as [->|Hp]; [contradiction|auto].
Qed.

Lemma new_branching N k v q p :
  (forall p, p `prefix_of` k -> has N p -> p `prefix_of` q) -> q `prefix_of` k -> has N q ->
  branching (<[k := v]> N) p -> branching N p \/ p = q.
Proof.
  intros Hmax Hq Hhq (i & j & Hij & Hi & Hj).
  assert (G : forall i j, i <> j -> p ++ [i] `prefix_of` k -> has (<[k := v]> N) (p ++ [j]) -> branching N p \/ p = q).
  { clear i j Hij Hi Hj. intros i j Hij Hi Hj.
    destruct (insert_has_inv _ _ _ _ Hj) as [Hj'|Hj'].
    2:{ exfalso. apply Hij. eapply pre_next_uniq; eassumption. }
    destruct (has_dec N (p ++ [i])) as [Hi'|Hi']; [left; exists i, j; auto|].
    right. assert (Hpq : p `prefix_of` q).
    { apply Hmax; [eapply pre_snoc, Hi|]. eapply has_pre; [|exact Hj']. eexists; reflexivity. }
    destruct (decide (p = q)) as [E|Hne]; [exact E|]. exfalso. apply Hi'.
    destruct (pre_next p q Hpq Hne) as (d & Hd).
    assert (d = i) as ->. { eapply pre_next_uniq; [|exact Hi]. etransitivity; [exact Hd|exact Hq]. }
    eapply has_pre; [exact Hd|exact Hhq]. }
  destruct (insert_has_inv _ _ _ _ Hi) as [Hi'|Hi']; [|eapply (G i j); eassumption].
  destruct (insert_has_inv _ _ _ _ Hj) as [Hj'|Hj']; [left; exists i, j; auto|].
  eapply (G j i); [congruence|exact Hj'|exact Hi].
Qed.

Lemma branchings N : exists B : list (list Z), (length B <= size N - 1)%nat /\ forall p, branching N p -> p ∈ B.
Proof.
  induction N as [|k v N Hk IH] using map_ind.
  - exists []. split; [cbn; lia|]. intros p (i & j & _ & (k & v & E & _) & _). rewrite lookup_empty in E. discriminate.
  - rewrite map_size_insert_None by exact Hk. destruct (decide (N = ∅)) as [->|Hne].
    + exists []. split; [cbn; lia|]. intros p (i & j & Hij & Hi & Hj). exfalso.
      apply insert_has_inv in Hi as [(k' & v' & E & _)|Hi]; [rewrite lookup_empty in E; discriminate|].
      apply insert_has_inv in Hj as [(k' & v' & E & _)|Hj]; [rewrite lookup_empty in E; discriminate|].
      apply Hij. eapply pre_next_uniq; eassumption.
    + destruct IH as (B & HB & Hin). destruct (longest_shared N k Hne) as (q & Hq & Hhq & Hmax).
      exists (q :: B). split.
      * assert (size N <> 0%nat) by (intros E; apply Hne, map_size_empty_inv, E). cbn. lia.
      * intros p Hp. destruct (new_branching N k v q p Hmax Hq Hhq Hp) as [Hp'| ->]; [right; apply Hin, Hp'|left].
Qed.

(** ** Counting node objects *)
Lemma put_next s k l s' : put_node s k l = Ok s' -> next s' = next s.
Proof. unfold put_node. intros E. bind_ok E. injection E as <-. reflexivity. Qed.
Lemma del_next s k s' : del_node s k = Ok s' -> next s' = next s.
Proof. unfold del_node. intros E. bind_ok E. injection E as <-. reflexivity. Qed.
Lemma invalidate_next path : forall s cur s', invalidatePath s cur path = Ok s' -> next s' = next s.
Proof.
  induction path as [|l path IH]; intros s cur s' E; cbn [invalidatePath] in E.
  - injection E as <-. reflexivity.
  - bind_ok E. destruct a as (p & cs). bind_ok E. bind_ok E. apply IH in E. exact E.
Qed.
Lemma prune_next path : forall s cur s', prune s cur path = Ok s' -> next s' = next s.
Proof.
  induction path as [|l path IH]; intros s cur s' E; cbn [prune] in E.
  - injection E as <-. reflexivity.
  - bind_ok E. destruct a as (p & cs). bind_ok E. bind_ok E.
    destruct (filter _ _) as [|only [|x y]]; [case_bool_decide|case_bool_decide|].
    2:{ apply IH in E. exact E. }
    all: bind_ok E; apply invalidate_next in E; rewrite E; first [apply put_next in E3|apply del_next in E3]; rewrite E3; reflexivity.
Qed.
Lemma update_next fuel : forall s np k v path s', update fuel s np k v path = Ok s' ->
  (next s' <= next s + 2)%nat /\ (next s <= next s')%nat.
Proof.
  induction fuel as [|fuel IH]; intros s np k v path s' E; cbn [update] in E; [discriminate|].
  destruct (PrefixOf np k); cbn [negb] in E.
  2:{ cbn [alloc] in E. bind_ok E. bind_ok E. bind_ok E. bind_ok E. bind_ok E. bind_ok E.
      apply invalidate_next in E. apply put_next in E0, E5. cbn in *. lia. }
  destruct (bytes_eqb np k).
  - destruct v as [|x v].
    + bind_ok E. apply prune_next in E. apply del_next in E0. lia.
    + cbn [alloc] in E. bind_ok E. apply invalidate_next in E. apply put_next in E0. cbn in *. lia.
  - destruct (GetNode (sto s) np) as [l|]; [|discriminate]. bind_ok E. destruct a as (p & cs). bind_ok E. bind_ok E.
    destruct (c_exists a0); [eapply IH, E|]. cbn [alloc] in E. bind_ok E. bind_ok E. bind_ok E. bind_ok E.
    apply invalidate_next in E. apply put_next in E3, E6. cbn in *. lia.
Qed.
Lemma for_each_next {A} (f : state -> A -> res state) l : (forall s a s', f s a = Ok s' -> next s' = next s) ->
  forall s s', for_each f l s = Ok s' -> next s' = next s.
Proof.
  intros Hf. induction l as [|a l IH]; intros s s' E; cbn [for_each] in E; [injection E as <-; reflexivity|].
  bind_ok E. apply IH in E. apply Hf in E0. congruence.
Qed.
Section WithHash.
  Variable H : bytes -> bytes.
  Lemma hashes_next fuel : forall s q s' h, updateHashes H fuel s q = Ok (s', h) -> next s' = next s.
  Proof.
    induction fuel as [|fuel IH]; intros s q s' h E; cbn [updateHashes] in E; [discriminate|].
    destruct (GetNode (sto s) q) as [l|]; [|discriminate].
    destruct (heap s !! l) as [[p cs|p v]|]; [| |discriminate].
    - bind_ok E. bind_ok E. destruct a0 as (p1 & cs1). bind_ok E. bind_ok E. injection E as <- _.
      apply put_next in E2. rewrite E2. eapply for_each_next; [|exact E0]. clear -IH.
      intros s1 i s2 E. unfold hash_child in E. bind_ok E. destruct a as (p2 & cs2). bind_ok E.
      destruct (negb (c_exists a)); [injection E as <-; reflexivity|].
      destruct (bytes_eqb (c_hash a) zeroHash); [|injection E as <-; reflexivity].
      bind_ok E. destruct a0 as (s3 & h3). bind_ok E. destruct a0 as (p3 & cs3). bind_ok E.
      injection E as <-. cbn. eapply IH; eassumption.
    - bind_ok E. injection E as <- _. reflexivity.
  Qed.
  Lemma PutEntry_next s k v s' b : PutEntry H s k v = Ok (s', b) -> (next s' <= next s + 2)%nat /\ (next s <= next s')%nat.
  Proof.
    intros E. unfold PutEntry in E. bind_ok E. destruct a as (s1 & b1). bind_ok E. destruct a as (s2 & h).
    injection E as <- _. rewrite (hashes_next _ _ _ _ _ E1). unfold updateEntry in E0.
    assert (Hgo : forall r, (let? s' := update tree_fuel s [] (KeyToNibbles k) v [] in Ok (s', true)) = Ok r ->
      (next r.1 <= next s + 2)%nat /\ (next s <= next r.1)%nat).
    { intros (r & b2) E2. bind_ok E2. injection E2 as <- _. eapply update_next; eassumption. }
    destruct (GetNode (sto s) (KeyToNibbles k)) as [l|].
    - destruct (heap s !! l) as [[p cs|p w]|]; [exact (Hgo _ E0)| |exact (Hgo _ E0)].
      destruct (bytes_eqb w v); [injection E0 as <- _; lia|exact (Hgo _ E0)].
    - destruct v; [injection E0 as <- _; lia|exact (Hgo _ E0)].
  Qed.
End WithHash.
