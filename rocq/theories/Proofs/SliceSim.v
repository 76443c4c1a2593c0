(** The tree on slices (Model/TreeSlices.v) simulates the tree on lists
    (Model/Tree.v), whatever capacities append chooses. *)
From Coq Require Import ZArith List Lia Bool.
From stdpp Require Import gmap list.
From Verif.Model Require Import Base Address Nibbles Tree TreeSlices.
From Verif.Spec Require Import SliceHistory.
From Verif.Proofs Require Import BaseFacts TreeSim TreeRoot.
Open Scope Z_scope.

(** ** Slices *)
Definition s_end (x : slice) : nat := (s_off x + s_len x)%nat.
Lemma content_length A x : valid A x -> length (content A x) = s_len x.
Proof. intros (_ & Hl & Hc). unfold content. rewrite take_length, drop_length. lia. Qed.

(** Nothing but the part of [t]'s array behind [t] changes. *)
Definition frame (t : slice) (A A' : arrays) : Prop :=
  (length A <= length A')%nat /\
  forall a, (a < length A)%nat ->
    length (array A' a) = length (array A a) /\
    forall i, (a <> s_arr t \/ s_cap t = 0%nat \/ i < s_end t)%nat -> array A' a !! i = array A a !! i.

Lemma frame_refl t A : frame t A A.
Proof. split; [lia|]. auto. Qed.
Lemma frame_trans t A B C : frame t A B -> frame t B C -> frame t A C.
Proof.
  intros (L1 & F1) (L2 & F2). split; [lia|]. intros a Ha. destruct (F1 a Ha) as (E1 & G1).
  destruct (F2 a ltac:(lia)) as (E2 & G2). split; [congruence|]. intros i Hi. rewrite G2, G1; auto.
Qed.
Lemma frame_valid t A A' x : frame t A A' -> valid A x -> valid A' x.
Proof. intros (L & F) (V1 & V2 & V3). destruct (F _ V1) as (E & _). split; [lia|]. rewrite E. auto. Qed.
Lemma frame_content t A A' x : frame t A A' -> valid A x ->
  (s_arr x <> s_arr t \/ s_cap t = 0 \/ s_end x <= s_end t)%nat -> content A' x = content A x.
Proof.
  intros (L & F) (V1 & V2 & V3) Hx. destruct (F _ V1) as (E & G). unfold content. apply list_eq. intros i.
  destruct (decide (i < s_len x)%nat) as [Hi|Hi].
  - rewrite !lookup_take, !lookup_drop by exact Hi. apply G. unfold s_end in *. intuition lia.
  - rewrite !lookup_take_ge by lia. reflexivity.
Qed.

Lemma fresh_spec A ys n A' x : fresh_slice A ys n = (A', x) ->
  valid A' x /\ content A' x = ys /\ s_arr x = length A /\ s_off x = 0%nat /\ s_len x = length ys /\
  forall t, frame t A A'.
Proof.
  unfold fresh_slice. intros E. injection E as <- <-. unfold valid, content. cbn [s_arr s_off s_len s_cap].
  assert (Ea : array (A ++ [ys ++ repeat 0 n]) (length A) = ys ++ repeat 0 n).
  { unfold array. rewrite lookup_app_r by lia. rewrite Nat.sub_diag. reflexivity. }
  rewrite Ea, !app_length, repeat_length. cbn [length].
  split; [lia|]. split; [rewrite drop_0; apply take_app|]. do 3 (split; [reflexivity|]). intros t. split; [rewrite app_length; lia|].
  intros a Ha. unfold array. rewrite lookup_app_l by exact Ha. auto.
Qed.

Lemma overwrite_array A a i ys b : (a < length A)%nat ->
  array (overwrite A a i ys) b =
    if decide (b = a) then take i (array A a) ++ ys ++ drop (i + length ys) (array A a) else array A b.
Proof.
  intros Ha. unfold overwrite. unfold array at 1. case_decide as E.
  - subst. rewrite list_lookup_insert by exact Ha. reflexivity.
  - rewrite list_lookup_insert_ne by congruence. reflexivity.
Qed.

Lemma append_spec grow A x ys A' y : valid A x -> append grow A x ys = (A', y) ->
  valid A' y /\ content A' y = content A x ++ ys /\ frame x A A' /\
  s_len y = (s_len x + length ys)%nat /\
  (s_arr y = s_arr x /\ s_off y = s_off x /\ s_cap y = s_cap x \/ s_arr y = length A /\ s_off y = 0%nat) /\
  ((s_len x = s_cap x /\ ys <> []) -> s_arr y = length A /\ forall t, frame t A A').
Proof.
  intros Hv. unfold append. case_bool_decide as Hn.
  - intros E. injection E as <- <-. destruct Hv as (V1 & V2 & V3).
    assert (La : length (overwrite A (s_arr x) (s_off x + s_len x) ys) = length A) by (unfold overwrite; apply insert_length).
    split.
    { unfold valid. cbn [s_arr s_off s_len s_cap]. rewrite La, overwrite_array by exact V1.
      case_decide; [|congruence]. split; [lia|]. split; [lia|]. rewrite !app_length, take_length, drop_length. lia. }
    split.
    { unfold content. cbn [s_arr s_off s_len]. rewrite overwrite_array by exact V1. case_decide; [|congruence].
      set (a := array A (s_arr x)) in *. rewrite drop_app_le by (rewrite take_length; lia).
      rewrite app_assoc, take_app_alt; [|rewrite app_length, drop_length, take_length; lia]. f_equal.
      rewrite take_drop_commute. reflexivity. }
    split.
    { split; [lia|]. intros a Ha. rewrite overwrite_array by exact V1. case_decide as Ea; [|auto]. subst a. split.
      - rewrite !app_length, take_length, drop_length. lia.
      - unfold s_end. intros i [Hi|Hi]; [congruence|].
        assert (Hlt : (i < s_off x + s_len x)%nat \/ ys = []).
        { destruct Hi as [Hi|Hi]; [right; destruct ys; [reflexivity|cbn in Hn; lia]|left; exact Hi]. }
        destruct Hlt as [Hlt| ->].
        + rewrite lookup_app_l by (rewrite take_length; lia). apply lookup_take, Hlt.
        + cbn [app length]. rewrite Nat.add_0_r, take_drop. reflexivity. }
    split; [reflexivity|]. split; [left; auto|]. intros (Hc & Hne). destruct ys; [congruence|]. cbn in Hn. lia.
  - intros F. apply fresh_spec in F. destruct F as (F1 & F2 & F3 & F4 & F5 & F6).
    split; [exact F1|]. split; [exact F2|]. split; [apply F6|].
    split; [rewrite F5, app_length, content_length by exact Hv; reflexivity|]. split; [right; auto|]. auto.
Qed.

Lemma from_spec A x n y : valid A x -> from x n = Ok y ->
  valid A y /\ slice_from (content A x) n = Ok (content A y) /\ s_arr y = s_arr x /\ s_end y = s_end x.
Proof.
  intros Hv. pose proof (content_length A x Hv) as Hl. unfold from, slice_from. rewrite Hl.
  case_bool_decide as Hn; [|discriminate]. intros E. injection E as <-. destruct Hv as (V1 & V2 & V3).
  split; [unfold valid; cbn [s_arr s_off s_len s_cap]; lia|]. split; [|cbn; unfold s_end; cbn; split; [reflexivity|lia]].
  f_equal. unfold content. cbn [s_arr s_off s_len]. rewrite <- drop_drop.
  rewrite skipn_firstn_comm. reflexivity.
Qed.
Lemma from_ok A x n r : valid A x -> slice_from (content A x) n = Ok r -> exists y, from x n = Ok y.
Proof.
  intros Hv. unfold slice_from, from. rewrite (content_length A x Hv). case_bool_decide; [eauto|discriminate].
Qed.

(** ** The relation *)
(** The slices of a node that can still be read. *)
Definition uses (n : snode) (q : slice) : Prop :=
  match n with
  | SBranch p cs => q = p \/ exists c, In c cs /\ k_exists c = true /\ q = k_suffix c
  | SLeaf p v => q = p \/ q = v
  end.

(** The paths among them. *)
Definition paths (n : snode) (q : slice) : Prop :=
  match n with
  | SBranch _ _ => uses n q
  | SLeaf p _ => q = p
  end.

Definition child_rel (A : arrays) (c : schild) (c' : child) : Prop :=
  k_exists c = c_exists c' /\ k_hash c = c_hash c' /\ (k_exists c = true -> content A (k_suffix c) = c_suffix c').
Definition node_rel (A : arrays) (n : snode) (m : node) : Prop :=
  match n, m with
  | SBranch p cs, Branch p' cs' => content A p = p' /\ Forall2 (child_rel A) cs cs'
  | SLeaf p v, Leaf p' v' => content A p = p' /\ content A v = v'
  | _, _ => False
  end.

Definition shape (n : snode) : Prop :=
  match n with
  | SBranch p cs => s_off p = 0%nat /\ forall c, In c cs -> k_exists c = true -> (0 < s_len (k_suffix c))%nat
  | SLeaf _ _ => True
  end.

(** No live branch may grow its prefix over [q]. *)
Definition fits (L : loc -> Prop) (S : sstate) (q : slice) : Prop :=
  forall l p cs, L l -> sheap S !! l = Some (SBranch p cs) -> (0 < s_len p)%nat -> s_arr q = s_arr p -> (s_end q <= s_end p)%nat.
(** No node uses the array of [x]. *)
Definition private (L : loc -> Prop) (S : sstate) (x : slice) : Prop :=
  forall l n q, L l -> sheap S !! l = Some n -> uses n q -> s_arr q <> s_arr x.

(** [C] are the arrays that belong to the caller. *)
Section Sim.
Context (C : nat -> Prop).

Record sinv (L : loc -> Prop) (S : sstate) (s : state) : Prop := {
  i_paths : forall l n q, L l -> sheap S !! l = Some n -> paths n q -> (0 < s_len q)%nat -> ~ C (s_arr q);
  i_values : forall l p v, L l -> sheap S !! l = Some (SLeaf p v) -> C (s_arr v);
  i_bound : forall a, C a -> (a < length (arrs S))%nat;
  i_next : snext S = next s;
  i_sto : ssto S = sto s;
  i_nil : (0 < length (arrs S))%nat;
  i_below : forall l, L l -> (l < next s)%nat;
  i_nodes : forall l, L l -> exists n m, sheap S !! l = Some n /\ heap s !! l = Some m /\ node_rel (arrs S) n m;
  i_live : forall k l, GetNode (sto s) k = Some l -> L l /\ exists m, heap s !! l = Some m /\ node_prefix m = k;
  i_valid : forall l n q, L l -> sheap S !! l = Some n -> uses n q -> valid (arrs S) q;
  i_shape : forall l n, L l -> sheap S !! l = Some n -> shape n;
  i_uniq : forall l l' p cs p' cs', L l -> L l' -> l <> l' ->
    sheap S !! l = Some (SBranch p cs) -> sheap S !! l' = Some (SBranch p' cs') ->
    (0 < s_len p)%nat -> (0 < s_len p')%nat -> s_arr p <> s_arr p';
  i_own : forall l l' p cs n q, L l -> L l' -> l <> l' ->
    sheap S !! l = Some (SBranch p cs) -> (0 < s_len p)%nat ->
    sheap S !! l' = Some n -> uses n q -> s_arr q = s_arr p -> (s_end q <= s_end p)%nat
}.

Lemma i_caller L S s : sinv L S s ->
  forall l p cs, L l -> sheap S !! l = Some (SBranch p cs) -> (0 < s_len p)%nat -> ~ C (s_arr p).
Proof. intros I l p cs Hl E. eapply (i_paths _ _ _ I); eauto. left. reflexivity. Qed.

Lemma node_rel_frame A A' n m : node_rel A n m ->
  (forall q, uses n q -> content A' q = content A q) -> node_rel A' n m.
Proof.
  destruct n as [p cs|p v], m as [p' cs'|p' v']; cbn; auto.
  - intros (E & F) Hq. split; [rewrite Hq by auto; exact E|].
    assert (Hc : forall c, In c cs -> k_exists c = true -> content A' (k_suffix c) = content A (k_suffix c)) by (intros c Hc He; apply Hq; eauto).
    clear Hq E. induction F as [|c c' cs cs' (E1 & E2 & E3) F IH]; constructor.
    + split; [exact E1|]. split; [exact E2|]. intros He. rewrite Hc by (auto; left; reflexivity). auto.
    + apply IH. intros c0 Hin. apply Hc. right. exact Hin.
  - intros (E & F) Hq. rewrite !Hq by auto. auto.
Qed.

Lemma inv_arrs L S s t A' : sinv L S s -> frame t (arrs S) A' ->
  (forall l n q, L l -> sheap S !! l = Some n -> uses n q -> (s_arr q <> s_arr t \/ s_cap t = 0 \/ s_end q <= s_end t)%nat) ->
  sinv L (set_arrs S A') s.
Proof.
  intros I F Hq. destruct I. split; cbn [set_arrs snext ssto arrs sheap]; auto.
  - intros a Ha. destruct F. apply i_bound0 in Ha. lia.
  - destruct F. lia.
  - intros l Hl. destruct (i_nodes0 l Hl) as (n & m & E1 & E2 & R). exists n, m. split; [exact E1|]. split; [exact E2|].
    eapply node_rel_frame; [exact R|]. intros q Hu. eapply frame_content; eauto.
  - intros l n q Hl E Hu. eapply frame_valid; eauto.
Qed.

Lemma inv_drop (L L' : loc -> Prop) S s : sinv L S s -> (forall l, L' l -> L l) ->
  (forall k l, GetNode (sto s) k = Some l -> L' l) -> sinv L' S s.
Proof.
  intros I Hs Hl. destruct I. split; eauto.
  - intros k l E. split; [eauto|]. apply i_live0, E.
Qed.

Lemma inv_put L S s k l m s' : sinv L S s -> L l -> heap s !! l = Some m -> content (arrs S) k = node_prefix m ->
  put_node s (node_prefix m) l = Ok s' -> exists S', sput_node S k l = Ok S' /\ sinv L S' s' /\
    arrs S' = arrs S /\ sheap S' = sheap S /\ heap s' = heap s.
Proof.
  intros I Hl Em Ek E. unfold put_node in E. unfold sput_node. rewrite Ek. destruct I. rewrite i_sto0.
  destruct (PutNode (sto s) (node_prefix m) l) as [st|e| |] eqn:Ep; cbn in E |- *; try discriminate. injection E as <-.
  eexists. split; [reflexivity|]. split; [|auto]. split; cbn [arrs sheap snext ssto heap next sto]; auto.
  intros k' l'. rewrite (PutNode_get _ _ _ _ _ Ep). case_decide; [|auto]. intros E. injection E as <-. subst. eauto.
Qed.

Lemma DelNode_get_same s k s' : DelNode s k = Ok s' -> GetNode s' k = None.
Proof.
  destruct s as [m|lower [d|]]; cbn; intros E; [| |discriminate]; injection E as <-; cbn.
  - apply lookup_delete.
  - rewrite lookup_insert. reflexivity.
Qed.
Lemma inv_del L S s k k' s' : sinv L S s -> content (arrs S) k = k' ->
  del_node s k' = Ok s' -> exists S', sdel_node S k = Ok S' /\ sinv L S' s' /\
    arrs S' = arrs S /\ sheap S' = sheap S /\ heap s' = heap s /\
    (forall q l, GetNode (sto s') q = Some l -> q <> k' /\ GetNode (sto s) q = Some l).
Proof.
  intros I Ek E. unfold del_node in E. unfold sdel_node. rewrite Ek. destruct I. rewrite i_sto0.
  destruct (DelNode (sto s) k') as [st|e| |] eqn:Ep; cbn in E |- *; try discriminate. injection E as <-.
  assert (Hg : forall q l, GetNode st q = Some l -> q <> k' /\ GetNode (sto s) q = Some l).
  { intros q l. destruct (decide (q = k')) as [->|Hne]; [rewrite (DelNode_get_same _ _ _ Ep); discriminate|].
    rewrite (DelNode_get _ _ _ _ Hne Ep). auto. }
  eexists. split; [reflexivity|]. split; [|auto]. split; cbn [arrs sheap snext ssto heap next sto]; auto.
  intros q l Eq. apply i_live0. eapply Hg, Eq.
Qed.

Lemma inv_alloc L S s n m : sinv L S s -> node_rel (arrs S) n m -> shape n ->
  (forall q, uses n q -> valid (arrs S) q /\ fits L S q) ->
  (forall p cs, n = SBranch p cs -> (0 < s_len p)%nat -> private L S p) ->
  (forall q, paths n q -> (0 < s_len q)%nat -> ~ C (s_arr q)) ->
  (forall p v, n = SLeaf p v -> C (s_arr v)) ->
  sinv (fun l => L l \/ l = next s) (salloc S n).1 (alloc s m).1.
Proof.
  intros I R Hsh Hq Hp Hpc Hvc.
  pose proof I as I0. destruct I. cbn [salloc alloc fst]. rewrite i_next0.
  assert (Hd : forall l, L l -> next s <> l) by (intros l Hl <-; apply i_below0 in Hl; lia).
  split; cbn [arrs sheap snext ssto heap next sto]; auto.
  - intros l n0 q [Hl| ->]; [rewrite lookup_insert_ne by (apply Hd, Hl); eauto|]. rewrite lookup_insert.
    intros E. injection E as <-. apply Hpc.
  - intros l p v [Hl| ->]; [rewrite lookup_insert_ne by (apply Hd, Hl); eauto|]. rewrite lookup_insert.
    intros E. injection E as ->. eapply Hvc; eauto.
  - intros l [Hl|Hl]; [apply i_below0 in Hl; lia|lia].
  - intros l [Hl| ->].
    + rewrite !lookup_insert_ne by (apply Hd, Hl). apply i_nodes0, Hl.
    + rewrite !lookup_insert. eauto.
  - intros k l E. destruct (i_live0 k l E) as (Hl & m' & Em & Ek). split; [left; exact Hl|]. exists m'. split; [|exact Ek].
    rewrite lookup_insert_ne by (apply Hd, Hl). exact Em.
  - intros l n' q [Hl| ->]; [rewrite lookup_insert_ne by (apply Hd, Hl); eauto|]. rewrite lookup_insert.
    intros E. injection E as <-. intros Hu. apply Hq, Hu.
  - intros l n' [Hl| ->]; [rewrite lookup_insert_ne by (apply Hd, Hl); eauto|]. rewrite lookup_insert.
    intros E. injection E as <-. exact Hsh.
  - intros l l' p cs p' cs' [Hl| ->] [Hl'| ->] Hne.
    + rewrite !lookup_insert_ne by (apply Hd; assumption). eauto.
    + rewrite lookup_insert, lookup_insert_ne by (apply Hd; assumption). intros E1 E2 L1 L2. injection E2 as ->.
      eapply Hp; eauto. cbn. auto.
    + rewrite lookup_insert, lookup_insert_ne by (apply Hd; assumption). intros E1 E2 L1 L2. injection E1 as ->.
      intros Ha. symmetry in Ha. revert Ha. eapply Hp; eauto. cbn. auto.
    + congruence.
  - intros l l' p cs n' q [Hl| ->] [Hl'| ->] Hne.
    + rewrite !lookup_insert_ne by (apply Hd; assumption). eauto.
    + rewrite lookup_insert, lookup_insert_ne by (apply Hd; assumption). intros E1 Lp E2 Hu Ha. injection E2 as <-.
      exact (proj2 (Hq q Hu) l p cs Hl E1 Lp Ha).
    + rewrite lookup_insert, lookup_insert_ne by (apply Hd; assumption). intros E1 Lp E2 Hu Ha. injection E1 as ->.
      exfalso. eapply (Hp p cs); eauto.
    + congruence.
Qed.

Lemma inv_write L S s l p cs p' cs' ds ds' : sinv L S s -> L l ->
  sheap S !! l = Some (SBranch p cs) -> heap s !! l = Some (Branch p' cs') ->
  Forall2 (child_rel (arrs S)) ds ds' ->
  (forall c, In c ds -> k_exists c = true -> (exists c0, In c0 cs /\ k_exists c0 = true /\ k_suffix c0 = k_suffix c) \/ ((0 < s_len (k_suffix c))%nat /\ valid (arrs S) (k_suffix c) /\ fits L S (k_suffix c) /\ ~ C (s_arr (k_suffix c)))) ->
  sinv L (swrite S l (SBranch p ds)) (write s l (Branch p' ds')).
Proof.
  intros I Hl El Em F Hc. pose proof I as I0. destruct I.
  assert (Ep : content (arrs S) p = p').
  { destruct (i_nodes0 l Hl) as (n & m & E1 & E2 & R). rewrite El in E1. rewrite Em in E2. injection E1 as <-. injection E2 as <-. apply R. }
  assert (Hu : forall q, uses (SBranch p ds) q -> uses (SBranch p cs) q \/ (valid (arrs S) q /\ fits L S q /\ ~ C (s_arr q))).
  { intros q [->|(c & Hin & He & ->)]; [left; left; reflexivity|]. destruct (Hc c Hin He) as [(c0 & H1 & H2 & H3)|(_ & H)]; [|auto].
    left. right. exists c0. auto. }
  split; cbn [swrite write arrs sheap snext ssto heap next sto]; auto.
  - intros l0 n q Hl0. destruct (decide (l0 = l)) as [->|Hne].
    + rewrite lookup_insert. intros E Hq Hpos. injection E as <-. destruct (Hu q Hq) as [Hq'|(_ & _ & Hq')]; [|exact Hq'].
      eapply (i_paths0 l); eauto.
    + rewrite lookup_insert_ne by congruence. eauto.
  - intros l0 p0 v0 Hl0. destruct (decide (l0 = l)) as [->|Hne].
    + rewrite lookup_insert. discriminate.
    + rewrite lookup_insert_ne by congruence. eauto.
  - intros l0 Hl0. destruct (decide (l0 = l)) as [->|Hne].
    + rewrite !lookup_insert. do 2 eexists. split; [reflexivity|]. split; [reflexivity|]. split; assumption.
    + rewrite !lookup_insert_ne by congruence. auto.
  - intros k l0 E. destruct (i_live0 k l0 E) as (H1 & m & H2 & H3). split; [exact H1|].
    destruct (decide (l0 = l)) as [->|Hne].
    + rewrite lookup_insert. eexists. split; [reflexivity|]. rewrite Em in H2. injection H2 as <-. exact H3.
    + rewrite lookup_insert_ne by congruence. eauto.
  - intros l0 n q Hl0. destruct (decide (l0 = l)) as [->|Hne].
    + rewrite lookup_insert. intros E Hq. injection E as <-. destruct (Hu q Hq) as [Hq'|(Hq' & _)]; eauto.
    + rewrite lookup_insert_ne by congruence. eauto.
  - intros l0 n Hl0. destruct (decide (l0 = l)) as [->|Hne].
    + rewrite lookup_insert. intros E. injection E as <-. destruct (i_shape0 l _ Hl El) as (Ho & Hs). split; [exact Ho|].
      intros c Hin He. destruct (Hc c Hin He) as [(c0 & H1 & H2 & <-)|(H & _)]; [apply Hs; assumption|exact H].
    + rewrite lookup_insert_ne by congruence. eauto.
  - intros l1 l2 p1 cs1 p2 cs2 H1 H2 Hne.
    destruct (decide (l1 = l)) as [->|N1]; [rewrite lookup_insert, lookup_insert_ne by congruence|
      destruct (decide (l2 = l)) as [->|N2]; [rewrite lookup_insert, lookup_insert_ne by congruence|rewrite !lookup_insert_ne by congruence; eauto]].
    + intros E1 E2. injection E1 as <- <-. eauto.
    + intros E1 E2. injection E2 as <- <-. eauto.
  - intros l1 l2 p1 cs1 n q H1 H2 Hne.
    destruct (decide (l1 = l)) as [->|N1]; [rewrite lookup_insert, lookup_insert_ne by congruence|
      destruct (decide (l2 = l)) as [->|N2]; [rewrite lookup_insert, lookup_insert_ne by congruence|rewrite !lookup_insert_ne by congruence; eauto]].
    + intros E1 Lp E2. injection E1 as <- <-. eauto.
    + intros E1 Lp E2 Hq Ha. injection E2 as <-. destruct (Hu q Hq) as [Hq'|(_ & Hf & _)]; [eauto|]. exact (Hf l1 p1 cs1 H1 E1 Lp Ha).
Qed.

(** ** The operations *)
Lemma inv_branch L S s l p' cs' : sinv L S s -> L l -> as_branch s l = Ok (p', cs') ->
  exists p cs, sas_branch S l = Ok (p, cs) /\ sheap S !! l = Some (SBranch p cs) /\ heap s !! l = Some (Branch p' cs') /\
    content (arrs S) p = p' /\ s_len p = length p' /\ Forall2 (child_rel (arrs S)) cs cs' /\ valid (arrs S) p.
Proof.
  intros I Hl E. apply as_branch_heap in E. destruct (i_nodes _ _ _ I l Hl) as (n & m & E1 & E2 & R).
  rewrite E in E2. injection E2 as <-. destruct n as [p cs|]; [|destruct R]. destruct R as (Ep & F).
  assert (Hv : valid (arrs S) p) by (eapply (i_valid _ _ _ I); [exact Hl|exact E1|cbn; auto]).
  exists p, cs. unfold sas_branch. rewrite E1. split; [reflexivity|]. split; [reflexivity|]. split; [exact E|].
  split; [exact Ep|]. split; [rewrite <- Ep, content_length by exact Hv; reflexivity|]. auto.
Qed.

Lemma sPutChild_rel A cs cs' q h ds' : Forall2 (child_rel A) cs cs' -> valid A q -> PutChild cs' (content A q) h = Ok ds' ->
  exists ds, sPutChild A cs q h = Ok ds /\ Forall2 (child_rel A) ds ds' /\ (0 < s_len q)%nat /\
    (forall c, In c ds -> In c cs \/ c = SChild q h true).
Proof.
  intros F Hv. unfold PutChild, sPutChild. pose proof (content_length A q Hv) as Hl.
  destruct (content A q) as [|d r] eqn:Ec; [discriminate|]. rewrite <- (Forall2_length _ _ _ F).
  case_bool_decide; [|discriminate]. intros E. injection E as <-. eexists. split; [reflexivity|]. split.
  - apply Forall2_insert; [exact F|]. split; [reflexivity|]. split; [reflexivity|]. intros _. exact Ec.
  - split; [cbn in Hl; lia|]. intros c Hin. apply elem_of_list_In in Hin.
    apply elem_of_list_lookup in Hin as (i & Hi). apply list_lookup_insert_Some in Hi as [(_ & Hi & _)|(_ & Hi)].
    + right. congruence.
    + left. apply elem_of_list_In. eapply elem_of_list_lookup_2, Hi.
Qed.

(** The caller's arrays are as before. *)
Definition keeps (A A' : arrays) : Prop := forall a, C a -> array A' a = array A a.
Lemma keeps_frame t A A' : frame t A A' -> (forall a, C a -> (a < length A)%nat) -> (s_cap t = 0%nat \/ ~ C (s_arr t)) -> keeps A A'.
Proof.
  intros (_ & F) Hb Ht a Ha. apply list_eq. intros i. apply (F a (Hb a Ha)).
  destruct Ht as [Ht|Ht]; [auto|]. left. congruence.
Qed.

Lemma fits_prefix L S s l p cs : sinv L S s -> L l -> sheap S !! l = Some (SBranch p cs) -> fits L S p.
Proof.
  intros I Hl E l0 p0 cs0 Hl0 E0 Hp Ha. destruct (decide (l0 = l)) as [->|Hne].
  - rewrite E in E0. injection E0 as <- <-. lia.
  - destruct (decide (0 < s_len p)%nat) as [Hp'|Hp'].
    + exfalso. eapply (i_uniq _ _ _ I l l0); eauto.
    + destruct (i_shape _ _ _ I l _ Hl E) as (Ho & _). unfold s_end. lia.
Qed.

Lemma fits_write L S l p cs ds q : sheap S !! l = Some (SBranch p cs) -> fits L S q -> fits L (swrite S l (SBranch p ds)) q.
Proof.
  intros E Hf l0 p0 cs0 Hl0. cbn. destruct (decide (l0 = l)) as [->|Hne].
  - rewrite lookup_insert. intros E0. injection E0 as <- <-. eapply Hf; eauto.
  - rewrite lookup_insert_ne by congruence. eapply Hf; eauto.
Qed.

Lemma bind_inv {A B} (x : res A) (f : A -> res B) b : bind x f = Ok b -> exists a, x = Ok a /\ f a = Ok b.
Proof. destruct x; cbn; try discriminate. eauto. Qed.

Lemma inv_invalidate L path : forall S s cur s', sinv L S s -> valid (arrs S) cur -> fits L S cur -> ((0 < s_len cur)%nat -> ~ C (s_arr cur)) -> Forall L path ->
  invalidatePath s (content (arrs S) cur) path = Ok s' ->
  exists S', sinvalidatePath S cur path = Ok S' /\ sinv L S' s' /\ arrs S' = arrs S.
Proof.
  induction path as [|l path IH]; intros S s cur s' I Hv Hf Hnc Hp E; cbn [invalidatePath sinvalidatePath] in *.
  { injection E as <-. eauto. }
  apply bind_inv in E as ((p' & cs') & E1 & E). apply bind_inv in E as (suf' & E2 & E).
  apply bind_inv in E as (ds' & E3 & E). inversion_clear Hp as [|? ? Hl Hp'].
  destruct (inv_branch L S s l p' cs' I Hl E1) as (p & cs & -> & Es & Eh & Ep & Lp & F & Vp). cbn [bind].
  rewrite <- Lp in E2. destruct (from_ok _ _ _ _ Hv E2) as (suf & Ef). rewrite Ef. cbn [bind].
  destruct (from_spec _ _ _ _ Hv Ef) as (Vs & Ec & Ea & Ee). rewrite E2 in Ec. injection Ec as ->.
  destruct (sPutChild_rel _ _ _ _ _ _ F Vs E3) as (ds & -> & Fd & Ls & Hd). cbn [bind].
  assert (I' : sinv L (swrite S l (SBranch p ds)) (write s l (Branch p' ds'))).
  { eapply inv_write; eauto. intros c Hin He. destruct (Hd c Hin) as [Hc| ->]; [left; eauto|right]. cbn [k_suffix].
    split; [exact Ls|]. split; [exact Vs|]. split.
    { intros l0 p0 cs0 H0 E0 L0 A0. rewrite Ee. eapply Hf; eauto. congruence. }
    rewrite Ea. apply Hnc. unfold from in Ef. case_bool_decide; [|discriminate]. injection Ef as <-. cbn in Ls. lia. }
  destruct (IH (swrite S l (SBranch p ds)) (write s l (Branch p' ds')) p s' I') as (S' & H1 & H2 & H3); [..|exists S'; split; [exact H1|]; split; [exact H2|exact H3]].
  - exact Vp.
  - eapply fits_prefix; [exact I'|exact Hl|]. cbn. apply lookup_insert.
  - eapply (i_caller _ _ _ I'); [exact Hl|]. cbn. apply lookup_insert.
  - exact Hp'.
  - cbn [swrite arrs]. rewrite Ep. exact E.
Qed.

Lemma filter_rel A cs cs' : Forall2 (child_rel A) cs cs' ->
  Forall2 (child_rel A) (filter (fun c => k_exists c = true) cs) (filter (fun c => c_exists c = true) cs').
Proof.
  induction 1 as [|c c' cs cs' R F IH]; [constructor|]. rewrite !filter_cons. destruct R as (E1 & E2). rewrite <- E1.
  destruct (decide (k_exists c = true)); [|exact IH]. constructor; [|exact IH]. split; [exact E1|exact E2].
Qed.

Lemma index_rel A cs cs' i c' : Forall2 (child_rel A) cs cs' -> index cs' i = Ok c' ->
  exists c, index cs i = Ok c /\ child_rel A c c' /\ In c cs.
Proof.
  intros F. rewrite !index_lookup. destruct (cs' !! i) as [x|] eqn:E; [|discriminate]. intros E'. injection E' as ->.
  destruct (Forall2_lookup_r _ _ _ _ _ F E) as (c & Ec & R). rewrite Ec. exists c. split; [reflexivity|]. split; [exact R|].
  apply elem_of_list_In. eapply elem_of_list_lookup_2, Ec.
Qed.

Lemma inv_prune grow path : forall L S s cur s', sinv L S s -> valid (arrs S) cur -> Forall L path -> List.NoDup path ->
  prune s (content (arrs S) cur) path = Ok s' -> exists L' S', sprune grow S cur path = Ok S' /\ sinv L' S' s' /\ keeps (arrs S) (arrs S').
Proof.
  induction path as [|l path IH]; intros L S s cur s' I Hv Hp Hd E; cbn [prune sprune] in *.
  { injection E as <-. exists L, S. split; [reflexivity|]. split; [exact I|]. intros a _. reflexivity. }
  apply bind_inv in E as ((p' & cs') & E1 & E). apply bind_inv in E as (d & E2 & E).
  apply bind_inv in E as (c' & E3 & E). inversion_clear Hp as [|? ? Hl Hp']. inversion_clear Hd as [|? ? Hnl Hd'].
  destruct (inv_branch L S s l p' cs' I Hl E1) as (p & cs & -> & Es & Eh & Ep & Lp & F & Vp). cbn [bind].
  rewrite Lp, E2. cbn [bind]. destruct (index_rel _ _ _ _ _ F E3) as (c & -> & (Rc1 & Rc2 & Rc3) & Hin). cbn [bind].
  set (ds := <[Z.to_nat d := SChild (k_suffix c) (k_hash c) false]> cs).
  set (ds' := <[Z.to_nat d := Child (c_suffix c') (c_hash c') false]> cs') in *.
  assert (Fd : Forall2 (child_rel (arrs S)) ds ds').
  { apply Forall2_insert; [exact F|]. split; [reflexivity|]. split; [exact Rc2|]. discriminate. }
  assert (Sub : forall c0, In c0 ds -> k_exists c0 = true -> In c0 cs).
  { intros c0 Hc He. apply elem_of_list_In in Hc. apply elem_of_list_lookup in Hc as (i & Hi).
    apply list_lookup_insert_Some in Hi as [(_ & <- & _)|(_ & Hi)]; [discriminate He|].
    apply elem_of_list_In. eapply elem_of_list_lookup_2, Hi. }
  assert (I1 : sinv L (swrite S l (SBranch p ds)) (write s l (Branch p' ds'))) by (eapply inv_write; eauto 6).
  set (S1 := swrite S l (SBranch p ds)) in *. set (s1 := write s l (Branch p' ds')) in *.
  assert (Es1 : sheap S1 !! l = Some (SBranch p ds)) by apply lookup_insert.
  assert (Eh1 : heap s1 !! l = Some (Branch p' ds')) by apply lookup_insert.
  assert (Hput : (let? s2 := put_node s1 p' l in invalidatePath s2 p' path) = Ok s' ->
    exists L' S', (let? S2 := sput_node S1 p l in sinvalidatePath S2 p path) = Ok S' /\ sinv L' S' s' /\ keeps (arrs S) (arrs S')).
  { intros E0. apply bind_inv in E0 as (s2 & Ea & E0).
    destruct (inv_put L S1 s1 p l (Branch p' ds') s2 I1 Hl Eh1 Ep Ea) as (S2 & -> & I2 & A2 & H2 & H2'). cbn [bind].
    destruct (inv_invalidate L path S2 s2 p s') as (S' & -> & I' & A'); eauto.
    - rewrite A2. exact Vp.
    - eapply fits_prefix; [exact I2|exact Hl|]. rewrite H2. exact Es1.
    - apply (i_caller _ _ _ I l p cs Hl Es).
    - rewrite A2. cbn [S1 swrite arrs]. rewrite Ep. exact E0.
    - exists L, S'. split; [reflexivity|]. split; [exact I'|]. intros a _. rewrite A', A2. reflexivity. }
  pose proof (filter_rel _ _ _ Fd) as Ff.
  destruct (filter (fun c0 => c_exists c0 = true) ds') as [|only' rest'].
  - apply Forall2_nil_inv_r in Ff. rewrite Ff. destruct (bool_decide (length p' = 0)%nat); [auto|].
    apply (IH L S1 s1 p s' I1); auto. cbn [S1 swrite arrs]. rewrite Ep. exact E.
  - apply Forall2_cons_inv_r in Ff as (only & rest & (Ro1 & Ro2 & Ro3) & Ff & Efl). rewrite Efl.
    destruct rest' as [|x' rest'].
    2: { apply Forall2_cons_inv_r in Ff as (x & rest0 & _ & _ & ->). auto. }
    apply Forall2_nil_inv_r in Ff as ->.
    assert (Ho : k_exists only = true).
    { assert (Hx : only ∈ filter (fun c => k_exists c = true) ds) by (rewrite Efl; left).
      apply elem_of_list_filter in Hx. apply Hx. }
    case_bool_decide as Hpos; [|auto].
    apply bind_inv in E as (s2 & Ea & E).
    destruct (inv_del L S1 s1 p p' s2 I1 Ep Ea) as (S2 & -> & I2 & A2 & H2 & H2' & Hg). cbn [bind].
    assert (Vp2 : valid (arrs S2) p) by (rewrite A2; exact Vp).
    assert (Ec2 : content (arrs S2) (k_suffix only) = c_suffix only') by (rewrite A2; apply Ro3, Ho). rewrite Ec2.
    destruct (append grow (arrs S2) p (c_suffix only')) as (A' & up) eqn:Eap.
    destruct (append_spec _ _ _ _ _ _ Vp2 Eap) as (Vup & Cup & Fup & Lup & Aup & _).
    set (L' := fun l0 => L l0 /\ l0 <> l).
    assert (I3 : sinv L' S2 s2).
    { eapply inv_drop; [exact I2|unfold L'; tauto|]. intros q l0 Eq. destruct (Hg q l0 Eq) as (Hq & Eq1).
      destruct (i_live _ _ _ I1 q l0 Eq1) as (H1 & m & Hm & Em). split; [exact H1|]. intros ->. apply Hq.
      rewrite Eh1 in Hm. injection Hm as <-. symmetry. exact Em. }
    assert (I4 : sinv L' (set_arrs S2 A') s2).
    { eapply inv_arrs; [exact I3|exact Fup|]. intros l0 n q (Hl0 & Hne) E0 Hu.
      destruct (decide (s_arr q = s_arr p)) as [Eq|Eq]; [right; right|left; exact Eq].
      eapply (i_own _ _ _ I2 l l0 p ds n q); eauto; [rewrite H2; exact Es1|lia]. }
    destruct (inv_invalidate L' path (set_arrs S2 A') s2 up s') as (S' & -> & I' & Ar'); [exact I4|exact Vup|..].
    + intros l0 p0 cs0 (Hl0 & Hne) E0 Hp0 Ha. cbn [set_arrs sheap] in E0. exfalso.
      destruct Aup as [(Aup & _)|(Aup & _)].
      * eapply (i_uniq _ _ _ I2 l l0 p ds p0 cs0); eauto; [rewrite H2; exact Es1|lia|congruence].
      * destruct (i_valid _ _ _ I2 l0 _ p0 Hl0 E0 ltac:(cbn; auto)) as (Hlt & _). lia.
    + intros _. destruct Aup as [(-> & _)|(-> & _)]; [apply (i_caller _ _ _ I l p cs Hl Es); lia|].
      intros Hc. apply (i_bound _ _ _ I2) in Hc. lia.
    + rewrite List.Forall_forall in *. intros l0 Hin0. split; [auto|]. intros ->. contradiction.
    + cbn [set_arrs arrs]. rewrite Cup, A2. cbn [S1 swrite arrs]. rewrite Ep. exact E.
    + exists L', S'. split; [reflexivity|]. split; [exact I'|]. rewrite Ar'. cbn [set_arrs arrs].
      rewrite A2 in Fup. eapply keeps_frame; [exact Fup|apply (i_bound _ _ _ I)|]. right.
      eapply (i_caller _ _ _ I l); [exact Hl|exact Es|lia].
Qed.

Lemma zero_children_rel A n : Forall2 (child_rel A) (repeat zero_schild n) (repeat zero_child n).
Proof. induction n; constructor; [|exact IHn]. split; [reflexivity|]. split; [reflexivity|]. discriminate. Qed.

Lemma CommonPrefix_take a b : CommonPrefix a b = take (length (CommonPrefix a b)) a.
Proof.
  revert b. induction a as [|x a IH]; intros [|y b]; [reflexivity..|]. cbn [CommonPrefix].
  destruct (x =? y); [|reflexivity]. cbn [length take]. f_equal. apply IH.
Qed.
Lemma sCommonPrefix_spec A x y : valid A x ->
  let pp := sCommonPrefix A x y in
  content A pp = CommonPrefix (content A x) (content A y) /\ s_len pp = length (CommonPrefix (content A x) (content A y)) /\
  ((0 < length A)%nat -> valid A pp) /\ (pp = nil_slice \/ s_arr pp = s_arr x /\ s_off pp = s_off x).
Proof.
  intros Hv. cbn zeta. unfold sCommonPrefix. pose proof (CommonPrefix_take (content A x) (content A y)) as Et.
  destruct (CommonPrefix (content A x) (content A y)) as [|d pp'] eqn:Ec.
  - split; [reflexivity|]. split; [reflexivity|]. split; [|auto]. intros Ha. unfold valid. cbn. split; [exact Ha|]. lia.
  - set (n := length (d :: pp')) in *.
    assert (Hn : (n <= s_len x)%nat).
    { rewrite <- (content_length A x Hv). apply (f_equal (@length Z)) in Et. rewrite take_length in Et. fold n in Et. lia. }
    split; [|split; [reflexivity|split; [|right; auto]]].
    + rewrite Et. unfold upto, content. cbn [s_arr s_off s_len]. rewrite take_take. f_equal. lia.
    + intros _. destruct Hv as (V1 & V2 & V3). unfold valid, upto. cbn [s_arr s_off s_len s_cap]. lia.
Qed.

Definition plus (L : loc -> Prop) (l : loc) : loc -> Prop := fun l0 => L l0 \/ l0 = l.

Lemma private_fits L S x : private L S x -> fits L S x.
Proof. intros Hp l p cs Hl E Hpos Ha. exfalso. eapply (Hp l _ p); eauto. cbn. auto. Qed.
Lemma nil_fits L S : fits L S nil_slice.
Proof. intros l p cs _ _ _ _. cbn. lia. Qed.
Lemma fits_arr L S x y : private L S x -> s_arr y = s_arr x -> fits L S y.
Proof. intros Hp E l p cs Hl El Hpos Ha. exfalso. eapply (Hp l _ p); eauto; [cbn; auto|congruence]. Qed.

Lemma inv_update grow fuel : forall L S s np kp v path s', sinv L S s ->
  valid (arrs S) np -> valid (arrs S) kp -> s_off np = 0%nat -> private L S kp ->
  (s_len np = 0%nat \/ private L S np /\ s_arr np <> s_arr kp /\ ~ C (s_arr np)) -> ~ C (s_arr kp) ->
  valid (arrs S) v -> C (s_arr v) ->
  Forall L path -> List.NoDup path ->
  (forall l, In l path -> exists p cs, heap s !! l = Some (Branch p cs) /\ (length p < length (content (arrs S) np))%nat) ->
  update fuel s (content (arrs S) np) (content (arrs S) kp) (content (arrs S) v) path = Ok s' ->
  exists L' S', supdate grow fuel S np kp v path = Ok S' /\ sinv L' S' s' /\ keeps (arrs S) (arrs S').
Proof.
  induction fuel as [|fuel IH]; intros L S s np kp v path s' I Vn Vk On Pk Pn Nck Vv Cv Hp Hd Hlen E; cbn [update supdate] in *; [discriminate|].
  assert (Fv : fits L S v).
  { intros l p cs Hl El Hpos Ha. exfalso. eapply (i_caller _ _ _ I l); eauto. rewrite <- Ha. exact Cv. }
  assert (Ncn : (0 < s_len np)%nat -> ~ C (s_arr np)) by (destruct Pn as [Pn|(_ & _ & Pn)]; [lia|auto]).
  assert (Keq : forall S', arrs S' = arrs S -> keeps (arrs S) (arrs S')) by (intros S' ES a _; rewrite ES; reflexivity).
  assert (Fnp : fits L S np).
  { destruct Pn as [Pn|(Pn & _)]; [|apply private_fits, Pn]. intros l p cs _ _ _ _. unfold s_end. lia. }
  destruct (PrefixOf (content (arrs S) np) (content (arrs S) kp)) eqn:Epre; cbn [negb] in *.
  2: { (* 82-97 *)
    destruct Pn as [Pn|(Pn & Nk & Nc)].
    { exfalso. pose proof (content_length _ _ Vn) as Hc. rewrite Pn in Hc. destruct (content (arrs S) np); [|discriminate Hc].
      discriminate Epre. }
    pose proof (inv_alloc L S s (SLeaf kp v) (Leaf (content (arrs S) kp) (content (arrs S) v)) I) as I1.
    destruct (salloc S (SLeaf kp v)) as (S1 & leaf) eqn:Es1. destruct (alloc s (Leaf (content (arrs S) kp) (content (arrs S) v))) as (s1 & leaf') eqn:El1.
    assert (Hlf : leaf = next s /\ leaf' = next s /\ arrs S1 = arrs S /\ sheap S1 = <[leaf := SLeaf kp v]> (sheap S) /\
      heap s1 = <[leaf := Leaf (content (arrs S) kp) (content (arrs S) v)]> (heap s)).
    { cbn in Es1, El1. injection Es1 as <- <-. injection El1 as <- <-. rewrite (i_next _ _ _ I). cbn. auto. }
    destruct Hlf as (-> & -> & A1 & H1 & H1'). cbn [fst] in I1.
    specialize (I1 ltac:(split; reflexivity) Logic.I).
    assert (I1' : sinv (plus L (next s)) S1 s1).
    { apply I1; [|discriminate|intros q -> _; exact Nck|intros ? ? E0; injection E0 as <- <-; exact Cv].
      intros q [-> | ->]; [split; [exact Vk|apply private_fits, Pk]|split; [exact Vv|exact Fv]]. }
    clear I1. apply bind_inv in E as (s2 & E1 & E).
    destruct (inv_put (plus L (next s)) S1 s1 kp (next s) (Leaf (content (arrs S) kp) (content (arrs S) v)) s2 I1') as (S2 & E2 & I2 & A2 & H2 & H2').
    { right. reflexivity. } { rewrite H1'. apply lookup_insert. } { rewrite A1. reflexivity. } { exact E1. }
    rewrite E2. cbn [bind]. rewrite A2, A1.
    pose proof (sCommonPrefix_spec (arrs S) np kp Vn) as (Cpp & Lpp & Vpp & App). specialize (Vpp (i_nil _ _ _ I)).
    set (pp := sCommonPrefix (arrs S) np kp) in *. set (pp' := CommonPrefix (content (arrs S) np) (content (arrs S) kp)) in *.
    apply bind_inv in E as (suf1' & E3 & E). rewrite <- Lpp in E3. destruct (from_ok _ _ _ _ Vn E3) as (suf1 & Ef1). rewrite Ef1. cbn [bind].
    destruct (from_spec _ _ _ _ Vn Ef1) as (Vs1 & Ec1 & Ea1 & Ee1). rewrite E3 in Ec1. injection Ec1 as ->.
    apply bind_inv in E as (cs1' & E4 & E). destruct (sPutChild_rel _ _ _ _ _ _ (zero_children_rel _ 16) Vs1 E4) as (cs1 & -> & F1 & Ls1 & Hc1). cbn [bind].
    apply bind_inv in E as (suf2' & E5 & E). rewrite <- Lpp in E5. destruct (from_ok _ _ _ _ Vk E5) as (suf2 & Ef2). rewrite Ef2. cbn [bind].
    destruct (from_spec _ _ _ _ Vk Ef2) as (Vs2 & Ec2 & Ea2 & Ee2). rewrite E5 in Ec2. injection Ec2 as ->.
    apply bind_inv in E as (cs2' & E6 & E). destruct (sPutChild_rel _ _ _ _ _ _ F1 Vs2 E6) as (cs2 & -> & F2 & Ls2 & Hc2). cbn [bind].
    assert (Hcs2 : forall c, In c cs2 -> k_exists c = true -> k_suffix c = suf1 \/ k_suffix c = suf2).
    { intros c Hin He. destruct (Hc2 c Hin) as [Hin1| ->]; [|cbn; auto]. destruct (Hc1 c Hin1) as [Hin0| ->]; [|cbn; auto].
      apply repeat_spec in Hin0. subst c. discriminate He. }
    (* slices of the new nodes against the others *)
    assert (Pn2 : private (plus L (next s)) S2 np).
    { intros l n q [Hl| ->]; rewrite H2, H1.
      - rewrite lookup_insert_ne by (intros <-; apply (i_below _ _ _ I) in Hl; lia). apply Pn, Hl.
      - rewrite lookup_insert. intros E0. injection E0 as <-. intros [-> | ->]; congruence. }
    assert (Fk2 : forall q, s_arr q = s_arr kp -> fits (plus L (next s)) S2 q).
    { intros q Hq l p cs [Hl| ->]; rewrite H2, H1.
      - rewrite lookup_insert_ne by (intros <-; apply (i_below _ _ _ I) in Hl; lia). intros El Hpos Ha. exfalso.
        eapply (Pk l _ p); eauto; [cbn; auto|congruence].
      - rewrite lookup_insert. discriminate. }
    assert (Fpp : fits (plus L (next s)) S2 pp).
    { destruct App as [->|(App & _)]; [apply nil_fits|eapply fits_arr; eauto]. }
    pose proof (inv_alloc (plus L (next s)) S2 s2 (SBranch pp cs2) (Branch pp' cs2') I2) as I3.
    destruct (salloc S2 (SBranch pp cs2)) as (S3 & par) eqn:Es3. destruct (alloc s2 (Branch pp' cs2')) as (s3 & par') eqn:El3.
    assert (Hpr : par = next s2 /\ par' = next s2 /\ arrs S3 = arrs S2 /\ sheap S3 = <[par := SBranch pp cs2]> (sheap S2) /\
      heap s3 = <[par := Branch pp' cs2']> (heap s2)).
    { cbn in Es3, El3. injection Es3 as <- <-. injection El3 as <- <-. rewrite (i_next _ _ _ I2). cbn. auto. }
    destruct Hpr as (-> & -> & A3 & H3 & H3'). cbn [fst] in I3.
    assert (I3' : sinv (plus (plus L (next s)) (next s2)) S3 s3).
    { apply I3; rewrite ?A2, ?A1.
      - split; assumption.
      - split; [destruct App as [->|(_ & ->)]; [reflexivity|exact On]|]. intros c Hin He. destruct (Hcs2 c Hin He) as [-> | ->]; assumption.
      - intros q [->|(c & Hin & He & ->)]; [split; assumption|]. destruct (Hcs2 c Hin He) as [-> | ->].
        + split; [exact Vs1|]. eapply fits_arr; eauto.
        + split; [exact Vs2|]. apply Fk2, Ea2.
      - intros p cs E0 Hpos. injection E0 as <- <-. destruct App as [Epp|(App & _)]; [rewrite Epp in Hpos; cbn in Hpos; lia|].
        intros l n q Hl E0 Hu. rewrite App. eapply Pn2; eauto.
      - intros q [->|(c & Hin & He & ->)] Hpos.
        + destruct App as [Epp|(App & _)]; [rewrite Epp in Hpos; cbn in Hpos; lia|]. rewrite App. exact Nc.
        + destruct (Hcs2 c Hin He) as [-> | ->]; congruence.
      - discriminate. }
    clear I3. apply bind_inv in E as (s4 & E7 & E).
    destruct (inv_put _ S3 s3 pp (next s2) (Branch pp' cs2') s4 I3') as (S4 & -> & I4 & A4 & H4 & H4').
    { right. reflexivity. } { rewrite H3'. apply lookup_insert. } { rewrite A3, A2, A1. exact Cpp. } { exact E7. }
    cbn [bind]. exists (plus (plus L (next s)) (next s2)).
    destruct (inv_invalidate (plus (plus L (next s)) (next s2)) path S4 s4 pp s' I4) as (S' & E9 & I5 & A5);
      [..|exists S'; split; [exact E9|]; split; [exact I5|apply Keq; congruence]].
    - rewrite A4, A3, A2, A1. exact Vpp.
    - eapply fits_prefix; [exact I4|right; reflexivity|]. rewrite H4, H3. apply lookup_insert.
    - eapply (i_caller _ _ _ I4 (next s2)); [right; reflexivity|]. rewrite H4, H3. apply lookup_insert.
    - eapply Forall_impl; [exact Hp|]. intros l Hl. left. left. exact Hl.
    - rewrite A4, A3, A2, A1, Cpp. exact E. }
  destruct (bytes_eqb (content (arrs S) np) (content (arrs S) kp)) eqn:Eeq.
  { (* 99-113 *)
    destruct (content (arrs S) v) as [|x vr] eqn:Ev.
    - apply bind_inv in E as (s1 & E1 & E). destruct (inv_del L S s np _ s1 I eq_refl E1) as (S1 & -> & I1 & A1 & H1 & H1' & _). cbn [bind].
      destruct (inv_prune grow path L S1 s1 np s' I1) as (L' & S' & E9 & I9 & K9); [rewrite A1; exact Vn|exact Hp|exact Hd|rewrite A1; exact E|].
      exists L', S'. split; [exact E9|]. split; [exact I9|]. rewrite <- A1. exact K9.
    - set (w := x :: vr) in *.
      pose proof (inv_alloc L S s (SLeaf np v) (Leaf (content (arrs S) np) w) I) as I1.
      destruct (salloc S (SLeaf np v)) as (S1 & leaf) eqn:Es1. destruct (alloc s (Leaf (content (arrs S) np) w)) as (s1 & leaf') eqn:El1.
      assert (Hlf : leaf = next s /\ leaf' = next s /\ arrs S1 = arrs S /\ sheap S1 = <[leaf := SLeaf np v]> (sheap S) /\
        heap s1 = <[leaf := Leaf (content (arrs S) np) w]> (heap s)).
      { cbn in Es1, El1. injection Es1 as <- <-. injection El1 as <- <-. rewrite (i_next _ _ _ I). cbn. auto. }
      destruct Hlf as (-> & -> & A1 & H1 & H1'). cbn [fst] in I1.
      assert (I1' : sinv (plus L (next s)) S1 s1).
      { apply I1; [split; [reflexivity|exact Ev]|exact Logic.I| |discriminate|intros q -> Hpos; apply Ncn, Hpos|intros ? ? E0; injection E0 as <- <-; exact Cv].
        intros q [-> | ->]; [split; [exact Vn|exact Fnp]|split; [exact Vv|exact Fv]]. }
      clear I1. apply bind_inv in E as (s2 & E1 & E).
      destruct (inv_put (plus L (next s)) S1 s1 np (next s) (Leaf (content (arrs S) np) w) s2 I1') as (S2 & -> & I2 & A2 & H2 & H2').
      { right. reflexivity. } { rewrite H1'. apply lookup_insert. } { rewrite A1. reflexivity. } { exact E1. }
      cbn [bind]. exists (plus L (next s)).
      destruct (inv_invalidate (plus L (next s)) path S2 s2 np s' I2) as (S' & E9 & I5 & A5);
        [..|exists S'; split; [exact E9|]; split; [exact I5|apply Keq; congruence]].
      + rewrite A2, A1. exact Vn.
      + intros l p cs [Hl| ->]; rewrite H2, H1.
        * rewrite lookup_insert_ne by (intros <-; apply (i_below _ _ _ I) in Hl; lia). apply Fnp, Hl.
        * rewrite lookup_insert. discriminate.
      + exact Ncn.
      + eapply Forall_impl; [exact Hp|]. intros l Hl. left. exact Hl.
      + rewrite A2, A1. exact E. }
  (* 115-136 *)
  rewrite (i_sto _ _ _ I). destruct (GetNode (sto s) (content (arrs S) np)) as [l|] eqn:Eg; [|discriminate].
  destruct (i_live _ _ _ I _ _ Eg) as (Hl & m & Em & Ek).
  apply bind_inv in E as ((p' & cs') & E1 & E). apply bind_inv in E as (d & E2 & E). apply bind_inv in E as (c' & E3 & E).
  destruct (inv_branch L S s l p' cs' I Hl E1) as (p & cs & -> & Es & Eh & Ep & Lp & F & Vp). cbn [bind].
  rewrite Eh in Em. injection Em as <-. cbn [node_prefix] in Ek.
  rewrite Lp, E2. cbn [bind]. destruct (index_rel _ _ _ _ _ F E3) as (c & -> & (Rc1 & Rc2 & Rc3) & Hin). cbn [bind].
  rewrite Rc1. destruct (c_exists c') eqn:Ex.
  - assert (Hcl : (0 < s_len (k_suffix c))%nat) by (apply (i_shape _ _ _ I l _ Hl Es); [exact Hin|congruence]).
    assert (Vc : valid (arrs S) (k_suffix c)) by (eapply (i_valid _ _ _ I l); [exact Hl|exact Es|]; right; exists c; split; [exact Hin|]; split; [congruence|reflexivity]).
    specialize (Rc3 Rc1). rewrite Rc3.
    assert (Hne : c_suffix c' <> []) by (rewrite <- Rc3; intros E0; apply (f_equal (@length Z)) in E0; rewrite (content_length _ _ Vc) in E0; cbn in E0; lia).
    destruct (append grow (arrs S) (clip p) (c_suffix c')) as (A' & cp) eqn:Eap.
    assert (Vcl : valid (arrs S) (clip p)) by (destruct Vp as (V1 & V2 & V3); unfold valid, clip; cbn [s_arr s_off s_len s_cap]; lia).
    assert (Ccl : content (arrs S) (clip p) = p') by exact Ep.
    destruct (append_spec _ _ _ _ _ _ Vcl Eap) as (Vcp & Ccp & _ & Lcp & Acp & Fresh).
    destruct (Fresh (conj eq_refl Hne)) as (Afr & Fr).
    assert (Ocp : s_off cp = 0%nat).
    { destruct Acp as [(Acp & _)|(_ & Acp)]; [|exact Acp]. cbn [clip s_arr] in Acp. destruct Vp as (V1 & _). lia. }
    assert (Ck : content A' kp = content (arrs S) kp) by (eapply frame_content; [apply (Fr nil_slice)|exact Vk|right; left; reflexivity]).
    assert (I1 : sinv L (set_arrs S A') s).
    { eapply inv_arrs; [exact I|apply (Fr nil_slice)|]. intros. right. left. reflexivity. }
    rewrite Ccl in Ccp.
    assert (Kfr : keeps (arrs S) A') by (eapply keeps_frame; [apply (Fr nil_slice)|apply (i_bound _ _ _ I)|left; reflexivity]).
    assert (Cvl : content A' v = content (arrs S) v) by (eapply frame_content; [apply (Fr nil_slice)|exact Vv|right; left; reflexivity]).
    destruct (IH L (set_arrs S A') s cp kp v (l :: path) s' I1) as (L' & S' & E9 & I9 & K9); cbn [set_arrs arrs sheap]; auto;
      [..|exists L', S'; split; [exact E9|]; split; [exact I9|]; intros a Ha; rewrite (K9 a Ha); apply Kfr, Ha].
    + eapply frame_valid; [apply (Fr nil_slice)|exact Vk].
    + right. split.
      * intros l0 n q Hl0 E0 Hu. destruct (i_valid _ _ _ I l0 n q Hl0 E0 Hu) as (Hlt & _). lia.
      * split; [destruct Vk as (Hlt & _); lia|]. intros Hc. apply (i_bound _ _ _ I) in Hc. lia.
    + eapply frame_valid; [apply (Fr nil_slice)|exact Vv].
    + constructor; [|exact Hd]. intros Hin0. destruct (Hlen l Hin0) as (p0 & cs0 & E0 & Hlt). rewrite Eh in E0.
      injection E0 as <- <-. rewrite Ek in Hlt. lia.
    + intros l0 [<-|Hin0].
      * exists p', cs'. split; [exact Eh|]. rewrite Ccp, app_length. destruct (c_suffix c'); [congruence|cbn; lia].
      * destruct (Hlen l0 Hin0) as (p0 & cs0 & E0 & Hlt). exists p0, cs0. split; [exact E0|].
        rewrite Ccp, app_length. rewrite <- Ek in Hlt. lia.
    + rewrite Ccp, Ck, Cvl. exact E.
  - pose proof (inv_alloc L S s (SLeaf kp v) (Leaf (content (arrs S) kp) (content (arrs S) v)) I) as I1.
    destruct (salloc S (SLeaf kp v)) as (S1 & leaf) eqn:Es1. destruct (alloc s (Leaf (content (arrs S) kp) (content (arrs S) v))) as (s1 & leaf') eqn:El1.
    assert (Hlf : leaf = next s /\ leaf' = next s /\ arrs S1 = arrs S /\ sheap S1 = <[leaf := SLeaf kp v]> (sheap S) /\
      heap s1 = <[leaf := Leaf (content (arrs S) kp) (content (arrs S) v)]> (heap s)).
    { cbn in Es1, El1. injection Es1 as <- <-. injection El1 as <- <-. rewrite (i_next _ _ _ I). cbn. auto. }
    destruct Hlf as (-> & -> & A1 & H1 & H1'). cbn [fst] in I1.
    assert (I1' : sinv (plus L (next s)) S1 s1).
    { apply I1; [split; reflexivity|exact Logic.I| |discriminate|intros q -> _; exact Nck|intros ? ? E0; injection E0 as <- <-; exact Cv].
      intros q [-> | ->]; [split; [exact Vk|apply private_fits, Pk]|split; [exact Vv|exact Fv]]. }
    clear I1. apply bind_inv in E as (s2 & E4 & E).
    destruct (inv_put (plus L (next s)) S1 s1 kp (next s) (Leaf (content (arrs S) kp) (content (arrs S) v)) s2 I1') as (S2 & -> & I2 & A2 & H2 & H2').
    { right. reflexivity. } { rewrite H1'. apply lookup_insert. } { rewrite A1. reflexivity. } { exact E4. }
    cbn [bind]. apply bind_inv in E as (suf' & E5 & E). rewrite <- Lp in E5 |- *. destruct (from_ok _ _ _ _ Vk E5) as (suf & Ef). rewrite Ef. cbn [bind].
    destruct (from_spec _ _ _ _ Vk Ef) as (Vs & Ec & Ea & Ee). rewrite E5 in Ec. injection Ec as ->.
    apply bind_inv in E as (ds' & E6 & E). rewrite A2, A1. destruct (sPutChild_rel _ _ _ _ _ _ F Vs E6) as (ds & -> & Fd & Ls & Hds). cbn [bind].
    assert (Hln : l <> next s) by (intros ->; apply (i_below _ _ _ I) in Hl; lia).
    assert (Es2 : sheap S2 !! l = Some (SBranch p cs)) by (rewrite H2, H1, lookup_insert_ne by congruence; exact Es).
    assert (Eh2 : heap s2 !! l = Some (Branch p' cs')) by (rewrite H2', H1', lookup_insert_ne by congruence; exact Eh).
    assert (F2 : forall q, fits L S q -> fits (plus L (next s)) S2 q).
    { intros q Hq l0 p0 cs0 [Hl0| ->]; rewrite H2, H1.
      - rewrite lookup_insert_ne by (intros <-; apply (i_below _ _ _ I) in Hl0; lia). apply Hq, Hl0.
      - rewrite lookup_insert. discriminate. }
    assert (I3 : sinv (plus L (next s)) (swrite S2 l (SBranch p ds)) (write s2 l (Branch p' ds'))).
    { eapply inv_write; [exact I2|left; exact Hl|exact Es2|exact Eh2|rewrite A2, A1; exact Fd|].
      intros c0 Hin0 He. destruct (Hds c0 Hin0) as [Hc| ->]; [left; eauto|right]. cbn [k_suffix].
      split; [exact Ls|]. split; [rewrite A2, A1; exact Vs|]. split; [|rewrite Ea; exact Nck]. apply F2. eapply fits_arr; eauto. }
    apply bind_inv in E as (s4 & E7 & E).
    destruct (inv_put _ _ _ p l (Branch p' ds') s4 I3) as (S4 & E8 & I4 & A4 & H4 & H4').
    { left. exact Hl. } { cbn. apply lookup_insert. } { cbn [swrite arrs]. rewrite A2, A1. exact Ep. } { exact E7. }
    rewrite E8. cbn [bind]. cbn [swrite arrs] in A4. exists (plus L (next s)).
    destruct (inv_invalidate (plus L (next s)) path S4 s4 np s' I4) as (S' & E9 & I5 & A5);
      [..|exists S'; split; [exact E9|]; split; [exact I5|apply Keq; congruence]].
    + rewrite A4, A2, A1. exact Vn.
    + intros l0 p0 cs0 Hl0. rewrite H4. apply (fits_write _ _ _ _ _ ds _ Es2 (F2 np Fnp)). exact Hl0.
    + exact Ncn.
    + eapply Forall_impl; [exact Hp|]. intros l0 Hl0. left. exact Hl0.
    + rewrite A4, A2, A1. exact E.
Qed.

(** ** Hashing *)
Lemma children_marshal_rel A cs cs' : Forall2 (child_rel A) cs cs' ->
  children_marshal (map (child_now A) cs) = children_marshal cs' /\ childCount (map (child_now A) cs) = childCount cs'.
Proof.
  intros F. unfold childCount.
  assert (E : children_marshal (map (child_now A) cs) = children_marshal cs' /\
    length (filter (fun c => c_exists c = true) (map (child_now A) cs)) = length (filter (fun c => c_exists c = true) cs')).
  { induction F as [|c c' cs cs' (E1 & E2 & E3) F (IH1 & IH2)]; [split; reflexivity|]. cbn [map children_marshal].
    rewrite !filter_cons. cbn [child_now c_exists c_suffix c_hash]. rewrite <- E1, E2.
    destruct (k_exists c); cbn [decide]; [|split; [exact IH1|destruct (decide (false = true)); [discriminate|exact IH2]]].
    rewrite (E3 eq_refl), IH1. split; [reflexivity|]. destruct (decide (true = true)); [cbn; congruence|congruence]. }
  split; [apply E|]. unfold zlen. destruct E as (_ & E). rewrite E. reflexivity.
Qed.
Lemma snode_hash_rel H A n m : node_rel A n m ->
  snode_hash H A n = match m with Branch p cs => branch_hash H p cs | Leaf p v => leaf_hash H p v end.
Proof.
  destruct n as [p cs|p v], m as [p' cs'|p' v']; cbn [node_rel]; try tauto; unfold snode_hash; cbn [node_now].
  - intros (-> & F). destruct (children_marshal_rel _ _ _ F) as (E1 & E2). unfold branch_hash, branch_marshal. rewrite E1, E2. reflexivity.
  - intros (-> & ->). reflexivity.
Qed.

(** No slice in [S'] that was not in [S]. *)
Definition same_slices (S S' : sstate) : Prop :=
  forall l n', sheap S' !! l = Some n' -> exists n, sheap S !! l = Some n /\ forall q, uses n' q -> uses n q.
Lemma same_refl S : same_slices S S.
Proof. intros l n E. eauto. Qed.
Lemma same_trans S1 S2 S3 : same_slices S1 S2 -> same_slices S2 S3 -> same_slices S1 S3.
Proof. intros A B l n E. destruct (B l n E) as (n1 & E1 & H1). destruct (A l n1 E1) as (n0 & E0 & H0). eauto. Qed.

(** [t] may be appended to without touching a node. *)
Definition tmp (L : loc -> Prop) (S : sstate) (t : slice) : Prop := private L S t \/ s_cap t = 0%nat.
Lemma tmp_same L S S' t : same_slices S S' -> tmp L S t -> tmp L S' t.
Proof.
  intros Hs [Hp|Hc]; [left|right; exact Hc]. intros l n q Hl E Hu. destruct (Hs l n E) as (n0 & E0 & H0). eapply Hp; eauto.
Qed.

Section Hashes.
  Variable grow : grow_policy.
  Variable H : bytes -> bytes.
  Variable L : loc -> Prop.

  Definition step_ok (srec : sstate -> slice -> res (sstate * bytes)) (rec : state -> nibbles -> res (state * bytes)) : Prop :=
    forall S s t s' h, sinv L S s -> valid (arrs S) t -> tmp L S t -> rec s (content (arrs S) t) = Ok (s', h) ->
    exists S', srec S t = Ok (S', h) /\ sinv L S' s' /\ frame t (arrs S) (arrs S') /\ same_slices S S'.

  Lemma inv_hash_child srec rec l i : step_ok srec rec -> L l ->
    forall S s t s', sinv L S s -> valid (arrs S) t -> tmp L S t -> hash_child rec l (content (arrs S) t) s i = Ok s' ->
    exists S', shash_child grow srec l t S i = Ok S' /\ sinv L S' s' /\ frame t (arrs S) (arrs S') /\ same_slices S S'.
  Proof.
    intros Hrec Hl S s t s' I Vt Tt E. unfold hash_child in E. unfold shash_child.
    apply bind_inv in E as ((p' & cs') & E1 & E). destruct (inv_branch L S s l p' cs' I Hl E1) as (p & cs & -> & Es & Eh & Ep & Lp & F & Vp).
    cbn [bind]. apply bind_inv in E as (c' & E2 & E). destruct (index_rel _ _ _ _ _ F E2) as (c & -> & (Rc1 & Rc2 & Rc3) & Hin). cbn [bind].
    assert (Htriv : Ok s = Ok s' -> exists S', Ok S = Ok S' /\ sinv L S' s' /\ frame t (arrs S) (arrs S') /\ same_slices S S').
    { intros E0. injection E0 as <-. exists S. split; [reflexivity|]. split; [exact I|]. split; [apply frame_refl|apply same_refl]. }
    rewrite Rc1, Rc2. destruct (c_exists c') eqn:Ex; cbn [negb] in *; [|auto]. destruct (bytes_eqb (c_hash c') zeroHash); [|auto].
    rewrite (Rc3 Rc1). destruct (append grow (arrs S) t (c_suffix c')) as (A' & dp) eqn:Eap.
    destruct (append_spec _ _ _ _ _ _ Vt Eap) as (Vd & Cd & Fd & Ld & Ad & _).
    apply bind_inv in E as ((s1 & h) & E3 & E).
    assert (I1 : sinv L (set_arrs S A') s).
    { eapply inv_arrs; [exact I|exact Fd|]. intros l0 n q Hl0 E0 Hu. destruct Tt as [Tt|Tt]; [left; eapply Tt; eauto|auto]. }
    assert (T1 : tmp L (set_arrs S A') dp).
    { destruct Ad as [(Ad & _ & Cap)|(Ad & _)].
      - destruct Tt as [Tt|Tt]; [left|right; congruence]. intros l0 n q Hl0 E0 Hu. rewrite Ad. eapply Tt; eauto.
      - left. intros l0 n q Hl0 E0 Hu. cbn in E0. destruct (i_valid _ _ _ I l0 n q Hl0 E0 Hu) as (Hlt & _). lia. }
    destruct (Hrec (set_arrs S A') s dp s1 h I1 Vd T1) as (S1 & E4 & I2 & F2 & SS2).
    { cbn [set_arrs arrs]. rewrite Cd. exact E3. }
    rewrite E4. cbn [bind]. apply bind_inv in E as ((p1' & cs1') & E5 & E).
    destruct (inv_branch L S1 s1 l p1' cs1' I2 Hl E5) as (p1 & cs1 & -> & Es1 & Eh1 & Ep1 & Lp1 & F1 & Vp1). cbn [bind].
    apply bind_inv in E as (c1' & E6 & E). destruct (index_rel _ _ _ _ _ F1 E6) as (c1 & -> & (Q1 & Q2 & Q3) & Hin1). cbn [bind].
    injection E as <-. eexists. split; [reflexivity|]. split; [|split].
    - eapply inv_write; [exact I2|exact Hl|exact Es1|exact Eh1| |].
      + apply Forall2_insert; [exact F1|]. split; [exact Q1|]. split; [reflexivity|exact Q3].
      + intros c0 Hc He. apply elem_of_list_In in Hc. apply elem_of_list_lookup in Hc as (j & Hj).
        apply list_lookup_insert_Some in Hj as [(_ & <- & _)|(_ & Hj)].
        * left. exists c1. cbn [k_suffix k_exists] in *. auto.
        * left. exists c0. split; [|auto]. apply elem_of_list_In. eapply elem_of_list_lookup_2, Hj.
    - cbn [swrite arrs set_arrs] in *. destruct Fd as (Ln & G1). destruct F2 as (Ln2 & G2). split; [lia|]. intros a Ha.
      destruct (G1 a Ha) as (Ea & Ga). destruct (G2 a ltac:(lia)) as (Eb & Gb). split; [congruence|]. intros j Hj.
      rewrite Gb; [apply Ga, Hj|]. destruct Ad as [(Ad & Ao & Ac)|(Ad & _)].
      + unfold s_end in *. rewrite Ad, Ao, Ac, Ld. intuition lia.
      + left. lia.
    - intros l0 n' E0. cbn [swrite sheap] in E0.
      assert (Hold : exists n1, sheap S1 !! l0 = Some n1 /\ forall q, uses n' q -> uses n1 q).
      { destruct (decide (l0 = l)) as [->|Hne]; [|rewrite lookup_insert_ne in E0 by congruence; eauto].
        rewrite lookup_insert in E0. injection E0 as <-. eexists. split; [exact Es1|].
        intros q [->|(c0 & Hc & He & ->)]; [left; reflexivity|right].
        apply elem_of_list_In in Hc. apply elem_of_list_lookup in Hc as (j & Hj).
        apply list_lookup_insert_Some in Hj as [(_ & <- & _)|(_ & Hj)].
        - exists c1. cbn [k_suffix k_exists] in *. auto.
        - exists c0. split; [|auto]. apply elem_of_list_In. eapply elem_of_list_lookup_2, Hj. }
      destruct Hold as (n1 & En1 & Hn1). destruct (SS2 l0 n1 En1) as (n & En & Hn). cbn in En. eauto.
  Qed.

  Lemma inv_for_each srec rec l is : step_ok srec rec -> L l ->
    forall S s t s', sinv L S s -> valid (arrs S) t -> tmp L S t ->
    for_each (hash_child rec l (content (arrs S) t)) is s = Ok s' ->
    exists S', for_each (shash_child grow srec l t) is S = Ok S' /\ sinv L S' s' /\ frame t (arrs S) (arrs S') /\ same_slices S S'.
  Proof.
    intros Hrec Hl. induction is as [|i is IH]; intros S s t s' I Vt Tt E; cbn [for_each] in *.
    - injection E as <-. exists S. split; [reflexivity|]. split; [exact I|]. split; [apply frame_refl|apply same_refl].
    - apply bind_inv in E as (s1 & E1 & E).
      destruct (inv_hash_child srec rec l i Hrec Hl S s t s1 I Vt Tt E1) as (S1 & -> & I1 & F1 & SS1). cbn [bind].
      assert (Ct : content (arrs S1) t = content (arrs S) t) by (eapply frame_content; eauto; right; right; lia).
      destruct (IH S1 s1 t s' I1) as (S2 & -> & I2 & F2 & SS2).
      + eapply frame_valid; eauto.
      + eapply tmp_same; eauto.
      + rewrite Ct. exact E.
      + exists S2. split; [reflexivity|]. split; [exact I2|]. split; [eapply frame_trans; eauto|eapply same_trans; eauto].
  Qed.

  Lemma inv_hashes fuel : step_ok (supdateHashes grow H fuel) (updateHashes H fuel).
  Proof.
    induction fuel as [|fuel IH]; intros S s t s' h I Vt Tt E; cbn [updateHashes supdateHashes] in *; [discriminate|].
    rewrite (i_sto _ _ _ I). destruct (GetNode (sto s) (content (arrs S) t)) as [l|] eqn:Eg; [|discriminate].
    destruct (i_live _ _ _ I _ _ Eg) as (Hl & _). destruct (i_nodes _ _ _ I l Hl) as (n & m & En & Em & R). rewrite En. rewrite Em in E.
    destruct m as [p' cs'|p' v'].
    - destruct n as [p cs|]; [|destruct R]. apply bind_inv in E as (s1 & E1 & E).
      destruct (inv_for_each _ _ l (seq 0 16) IH Hl S s t s1 I Vt Tt E1) as (S1 & -> & I1 & F1 & SS1). cbn [bind].
      apply bind_inv in E as ((p1' & cs1') & E2 & E).
      destruct (inv_branch L S1 s1 l p1' cs1' I1 Hl E2) as (p1 & cs1 & -> & Es1 & Eh1 & Ep1 & Lp1 & Fc1 & Vp1). cbn [bind].
      apply bind_inv in E as (s2 & E3 & E).
      destruct (inv_put L S1 s1 p1 l _ s2 I1 Hl Eh1 Ep1 E3) as (S2 & -> & I2 & A2 & H2 & _). cbn [bind].
      rewrite (snode_hash_rel H (arrs S2) (SBranch p1 cs1) (Branch p1' cs1')) by (rewrite A2; split; assumption).
      apply bind_inv in E as (h' & E4 & E). injection E as <- <-. rewrite E4. cbn [bind].
      exists S2. split; [reflexivity|]. split; [exact I2|]. rewrite A2. split; [exact F1|].
      intros l0 n0. rewrite H2. apply SS1.
    - destruct n as [|p v]; [destruct R|]. rewrite (snode_hash_rel H (arrs S) (SLeaf p v) (Leaf p' v') R).
      apply bind_inv in E as (h' & E4 & E). injection E as <- <-. rewrite E4. cbn [bind].
      exists S. split; [reflexivity|]. split; [exact I|]. split; [apply frame_refl|apply same_refl].
  Qed.
End Hashes.

(** ** The API *)
Lemma nil_valid L S s : sinv L S s -> valid (arrs S) nil_slice.
Proof. intros I. pose proof (i_nil _ _ _ I). unfold valid. cbn. lia. Qed.

Lemma skey_spec L S s key S1 x : sinv L S s -> sKeyToNibbles S key = (S1, x) ->
  sinv L S1 s /\ valid (arrs S1) x /\ content (arrs S1) x = KeyToNibbles key /\ private L S1 x /\ ~ C (s_arr x) /\ ssto S1 = ssto S /\ sheap S1 = sheap S /\
  frame nil_slice (arrs S) (arrs S1).
Proof.
  intros I. unfold sKeyToNibbles. destruct (fresh_slice (arrs S) (KeyToNibbles key) 0) as (A & y) eqn:Ef. intros E. injection E as <- <-.
  destruct (fresh_spec _ _ _ _ _ Ef) as (V & Cn & Ar & _ & _ & Fr). cbn [set_arrs arrs ssto sheap].
  split; [|split; [exact V|split; [exact Cn|split; [|split; [|split; [reflexivity|split; [reflexivity|apply (Fr nil_slice)]]]]]]].
  - eapply inv_arrs; [exact I|apply (Fr nil_slice)|]. auto.
  - intros l n q Hl E Hu. cbn in E. destruct (i_valid _ _ _ I l n q Hl E Hu) as (Hlt & _). lia.
  - intros Hc. apply (i_bound _ _ _ I) in Hc. lia.
Qed.

Theorem slices_PutEntry grow H L S s k v s' b : sinv L S s -> valid (arrs S) v -> C (s_arr v) ->
  PutEntry H s k (content (arrs S) v) = Ok (s', b) ->
  exists L' S', sPutEntry grow H S k v = Ok (S', b) /\ sinv L' S' s' /\ keeps (arrs S) (arrs S').
Proof.
  intros I Vv Cv E. unfold PutEntry in E. unfold sPutEntry. apply bind_inv in E as ((s1 & b1) & E1 & E).
  apply bind_inv in E as ((s2 & h) & E2 & E). injection E as <- <-.
  assert (Hu : exists L1 S1, supdateEntry grow S k v = Ok (S1, b1) /\ sinv L1 S1 s1 /\ keeps (arrs S) (arrs S1)).
  { unfold updateEntry in E1. unfold supdateEntry. destruct (sKeyToNibbles S k) as (S0 & kp) eqn:Ek.
    destruct (skey_spec _ _ _ _ _ _ I Ek) as (I0 & V0 & C0 & P0 & N0 & St0 & H0 & F0).
    assert (K0 : keeps (arrs S) (arrs S0)) by (eapply keeps_frame; [exact F0|apply (i_bound _ _ _ I)|left; reflexivity]).
    assert (Cv0 : content (arrs S0) v = content (arrs S) v) by (eapply frame_content; [exact F0|exact Vv|right; left; reflexivity]).
    assert (Hgo : (let? s' := update tree_fuel s [] (KeyToNibbles k) (content (arrs S) v) [] in Ok (s', true)) = Ok (s1, b1) ->
      exists L1 S1, (let? S' := supdate grow tree_fuel S0 nil_slice kp v [] in Ok (S', true)) = Ok (S1, b1) /\ sinv L1 S1 s1 /\ keeps (arrs S) (arrs S1)).
    { intros E. apply bind_inv in E as (s0 & E0 & E). injection E as <- <-.
      destruct (inv_update grow tree_fuel L S0 s nil_slice kp v [] s0 I0) as (L1 & S1 & -> & I1 & K1); auto.
      - eapply nil_valid, I0.
      - eapply frame_valid; eauto.
      - constructor.
      - intros l [].
      - rewrite C0, Cv0. exact E0.
      - exists L1, S1. split; [reflexivity|]. split; [exact I1|]. intros a Ha. rewrite (K1 a Ha). apply K0, Ha. }
    rewrite (i_sto _ _ _ I0), C0, Cv0. destruct (GetNode (sto s) (KeyToNibbles k)) as [l|] eqn:Eg.
    - destruct (i_live _ _ _ I0 _ _ Eg) as (Hl & _). destruct (i_nodes _ _ _ I0 l Hl) as (n & m & En & Em & R). rewrite En. rewrite Em in E1.
      destruct m as [p' cs'|p' v']; (destruct n as [p cs|p w]; cbn [node_rel] in R; try contradiction); [auto|].
      destruct R as (_ & ->). destruct (bytes_eqb v' (content (arrs S) v)); [|auto]. injection E1 as <- <-. eauto.
    - destruct (content (arrs S) v); [|auto]. injection E1 as <- <-. eauto. }
  destruct Hu as (L1 & S1 & -> & I1 & K1). cbn [bind].
  destruct (inv_hashes grow H L1 tree_fuel S1 s1 nil_slice s2 h I1) as (S2 & -> & I2 & F2 & _).
  - eapply nil_valid, I1.
  - right. reflexivity.
  - exact E2.
  - cbn [bind]. exists L1, S2. split; [reflexivity|]. split; [exact I2|]. intros a Ha. rewrite <- (K1 a Ha).
    revert a Ha. change (keeps (arrs S1) (arrs S2)). eapply keeps_frame; [exact F2|apply (i_bound _ _ _ I1)|left; reflexivity].
Qed.

Theorem slices_GetEntry L S s k r : sinv L S s -> GetEntry s k = Ok r ->
  exists x, sGetEntry S k = Ok x /\
    match x, r with
    | None, None => True
    | Some x, Some v => content (arrs S) x = v /\ valid (arrs S) x /\ C (s_arr x)
    | _, _ => False
    end.
Proof.
  intros I E. unfold GetEntry in E. unfold sGetEntry. destruct (sKeyToNibbles S k) as (S0 & kp) eqn:Ek.
  destruct (skey_spec _ _ _ _ _ _ I Ek) as (I0 & V0 & C0 & P0 & N0 & St0 & H0 & F0). rewrite (i_sto _ _ _ I0), C0.
  destruct (GetNode (sto s) (KeyToNibbles k)) as [l|] eqn:Eg; [|injection E as <-; exists None; auto].
  destruct (i_live _ _ _ I _ _ Eg) as (Hl & _). destruct (i_nodes _ _ _ I l Hl) as (n & m & En & Em & R). rewrite H0, En. rewrite Em in E.
  destruct m; [discriminate|]. destruct n as [|p v]; [destruct R|]. destruct R as (_ & R). injection E as <-. exists (Some v). split; [reflexivity|].
  split; [exact R|]. split; [eapply (i_valid _ _ _ I l); eauto; cbn; auto|eapply (i_values _ _ _ I l); eauto].
Qed.

Theorem slices_Hash H L S s h : sinv L S s -> Hash H s = Ok h -> sHash H S = Ok h.
Proof.
  intros I E. unfold Hash in E. unfold sHash. rewrite (i_sto _ _ _ I). destruct (GetNode (sto s) []) as [l|] eqn:Eg; [|discriminate].
  destruct (i_live _ _ _ I _ _ Eg) as (Hl & _). apply bind_inv in E as ((p' & cs') & E1 & E).
  destruct (inv_branch L S s l p' cs' I Hl E1) as (p & cs & -> & Es & Eh & Ep & Lp & F & Vp). cbn [bind].
  rewrite (snode_hash_rel H _ _ (Branch p' cs')) by (split; assumption). exact E.
Qed.
End Sim.

(** ** What the caller does *)
Lemma inv_make C L S s v extra A x : sinv C L S s -> fresh_slice (arrs S) v extra = (A, x) ->
  sinv (fun a => a = s_arr x \/ C a) L (set_arrs S A) s.
Proof.
  intros I Ef. destruct (fresh_spec _ _ _ _ _ Ef) as (V & Cn & Ar & _ & _ & Fr).
  assert (I1 : sinv C L (set_arrs S A) s) by (eapply inv_arrs; [exact I|apply (Fr nil_slice)|auto]).
  pose proof (i_valid _ _ _ _ I) as Hv. destruct I1. split; auto.
  - intros l n q Hl En Hq Hpos [Hc|Hc]; [|eapply i_paths0; eauto].
    assert (Hu : uses n q) by (destruct n; cbn in *; auto). destruct (Hv l n q Hl En Hu) as (Hlt & _). lia.
  - eauto.
  - intros a [->|Ha]; [|auto]. apply V.
Qed.

Lemma inv_write_buffer C L S s a i ys : sinv C L S s -> C a -> (i + length ys <= length (array (arrs S) a))%nat ->
  (forall l p v, L l -> sheap S !! l = Some (SLeaf p v) -> s_arr v <> a) -> sinv C L (write_buffer S a i ys) s.
Proof.
  intros I Ha Hi Hl. pose proof I as I0. destruct I. unfold write_buffer. pose proof (i_bound0 a Ha) as Hb.
  assert (La : length (overwrite (arrs S) a i ys) = length (arrs S)) by (unfold overwrite; apply insert_length).
  assert (Lb : forall b, length (array (overwrite (arrs S) a i ys) b) = length (array (arrs S) b)).
  { intros b. rewrite overwrite_array by exact Hb. case_decide; [|reflexivity]. subst. rewrite !app_length, take_length, drop_length. lia. }
  split; cbn [set_arrs snext ssto arrs sheap]; rewrite ?La; auto.
  - intros l Hl0. destruct (i_nodes0 l Hl0) as (n & m & E1 & E2 & R). exists n, m. split; [exact E1|]. split; [exact E2|].
    eapply node_rel_frame; [exact R|]. intros q Hu.
    assert (Hq : s_len q = 0%nat \/ s_arr q <> a).
    { destruct (decide (s_len q = 0%nat)) as [|Hp]; [auto|right]. destruct n as [p cs|p v]; cbn [uses] in Hu.
      - intros Ea. rewrite <- Ea in Ha. revert Ha. eapply (i_paths0 l); eauto; lia.
      - destruct Hu as [-> | ->]; [|eapply Hl; eauto]. intros Ea. rewrite <- Ea in Ha. revert Ha.
        eapply (i_paths0 l _ p); eauto; [reflexivity|lia]. }
    unfold content. destruct Hq as [-> |Hq]; [reflexivity|]. rewrite overwrite_array by exact Hb. case_decide; [congruence|reflexivity].
  - intros l n q Hl0 E Hu. destruct (i_valid0 l n q Hl0 E Hu) as (V1 & V2 & V3). split; [lia|]. rewrite Lb. auto.
Qed.
