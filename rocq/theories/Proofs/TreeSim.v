(** Layer A of the tree proofs: the heap model simulates a pure version that
    works on a finite map from paths to nodes, for every kind of store. *)
From Coq Require Import ZArith List Lia Bool.
From stdpp Require Import gmap list.
From Verif.Model Require Import Base Address Nibbles Tree.
From Verif.Proofs Require Import BaseFacts NibblesFacts.
Open Scope Z_scope.

(** ** The mapping a store denotes *)
Fixpoint flatten (s : store) : gmap nibbles loc :=
  match s with
  | MemStore m => m
  | OverlayStore lower None => flatten lower
  | OverlayStore lower (Some d) =>
      merge (fun o l => match o with Some x => x | None => l end) d (flatten lower)
  end.

Lemma flatten_lookup s k : flatten s !! k = GetNode s k.
Proof.
  induction s as [m|lower IH [d|]]; cbn; [reflexivity| |exact IH].
  rewrite lookup_merge. unfold diag_None. destruct (d !! k) as [o|] eqn:E.
  - destruct (flatten lower !! k); reflexivity.
  - rewrite <- IH. destruct (flatten lower !! k); reflexivity.
Qed.

Definition writable (s : store) : Prop :=
  match s with OverlayStore _ None => False | _ => True end.

Lemma PutNode_ok s k l : writable s ->
  exists s', PutNode s k l = Ok s' /\ writable s' /\
    forall k', GetNode s' k' = if decide (k = k') then Some l else GetNode s k'.
Proof.
  destruct s as [m|lower [d|]]; cbn; intros Hw; [| |contradiction]; eexists; (split; [reflexivity|]);
    (split; [exact I|]); intros k'; cbn; case_decide as Hk.
  - subst k'. apply lookup_insert.
  - apply lookup_insert_ne, Hk.
  - subst k'. rewrite lookup_insert. reflexivity.
  - rewrite lookup_insert_ne by exact Hk. reflexivity.
Qed.

Lemma DelNode_ok s k : writable s ->
  exists s', DelNode s k = Ok s' /\ writable s' /\
    forall k', GetNode s' k' = if decide (k = k') then None else GetNode s k'.
Proof.
  destruct s as [m|lower [d|]]; cbn; intros Hw; [| |contradiction]; eexists; (split; [reflexivity|]);
    (split; [exact I|]); intros k'; cbn; case_decide as Hk.
  - subst k'. apply lookup_delete.
  - apply lookup_delete_ne, Hk.
  - subst k'. rewrite lookup_insert. reflexivity.
  - rewrite lookup_insert_ne by exact Hk. reflexivity.
Qed.

(** ** Views and well-formed states *)
Definition view (s : state) : gmap nibbles node := omap (fun l => heap s !! l) (flatten (sto s)).

Lemma view_lookup s k : view s !! k = GetNode (sto s) k ≫= (fun l => heap s !! l).
Proof. unfold view. rewrite lookup_omap, flatten_lookup. reflexivity. Qed.

Definition node_shape (n : node) : Prop :=
  match n with
  | Branch _ cs => length cs = 16%nat /\
      forall i c, cs !! i = Some c -> c_exists c = true -> exists r, c_suffix c = Z.of_nat i :: r
  | Leaf _ _ => True
  end.

Definition wf (s : state) : Prop :=
  writable (sto s) /\
  (forall l n, heap s !! l = Some n -> (l < next s)%nat) /\
  (forall k l, GetNode (sto s) k = Some l ->
     exists n, heap s !! l = Some n /\ node_prefix n = k /\ node_shape n).

Definition sim (s : state) (V : gmap nibbles node) : Prop := wf s /\ view s = V.

Definition at_path (s : state) (l : loc) (p : nibbles) : Prop := GetNode (sto s) p = Some l.

Definition res_rel {A B} (R : A -> B -> Prop) (x : res A) (y : res B) : Prop :=
  match x, y with
  | Ok a, Ok b => R a b
  | Err e, Err e' => e = e'
  | Panic, Panic => True
  | OutOfFuel, OutOfFuel => True
  | _, _ => False
  end.

Lemma res_rel_bind {A B A' B'} (R : A -> B -> Prop) (R' : A' -> B' -> Prop) x y f g :
  res_rel R x y -> (forall a b, x = Ok a -> y = Ok b -> R a b -> res_rel R' (f a) (g b)) ->
  res_rel R' (bind x f) (bind y g).
Proof.
  destruct x, y; cbn; intros H Hf; try contradiction; auto.
Qed.

Lemma res_rel_mono {A B} (R R' : A -> B -> Prop) x y :
  (forall a b, R a b -> R' a b) -> res_rel R x y -> res_rel R' x y.
Proof. destruct x, y; cbn; auto. Qed.

Lemma sim_get s V k : sim s V ->
  match GetNode (sto s) k with
  | None => V !! k = None
  | Some l => exists n, heap s !! l = Some n /\ V !! k = Some n /\ node_prefix n = k /\ node_shape n
  end.
Proof.
  intros ((_ & _ & Hg) & <-). rewrite view_lookup.
  destruct (GetNode (sto s) k) as [l|] eqn:E; [|reflexivity].
  destruct (Hg k l E) as (n & Hn & Hp & Hs). exists n. cbn. auto.
Qed.

(** Distinct paths have distinct node objects. *)
Lemma wf_inj s k k' l : wf s -> GetNode (sto s) k = Some l -> GetNode (sto s) k' = Some l -> k = k'.
Proof.
  intros (_ & _ & Hg) H1 H2. destruct (Hg _ _ H1) as (n & Hn & Hp & _).
  destruct (Hg _ _ H2) as (n' & Hn' & Hp' & _). congruence.
Qed.

(** In-place mutation of the object at path [p]. *)
Lemma sim_write s V l p n :
  sim s V -> at_path s l p -> node_prefix n = p -> node_shape n ->
  sim (write s l n) (<[p := n]> V).
Proof.
  intros (Hwf & HV) Hat Hp Hs. pose proof Hwf as (Hw & Hn & Hg). split.
  - split; [exact Hw|]. split.
    + cbn. intros l' n'. destruct (decide (l = l')) as [->|Hne].
      * intros _. destruct (Hg _ _ Hat) as (n0 & Hn0 & _). eapply Hn, Hn0.
      * rewrite lookup_insert_ne by exact Hne. apply Hn.
    + cbn. intros k l' Hk. destruct (decide (l = l')) as [->|Hne].
      * assert (k = p) as -> by (eapply wf_inj; eassumption).
        exists n. rewrite lookup_insert. auto.
      * rewrite lookup_insert_ne by exact Hne. apply Hg, Hk.
  - apply map_eq. intros k. rewrite view_lookup. cbn.
    destruct (decide (p = k)) as [<-|Hne].
    + rewrite lookup_insert. rewrite Hat. cbn. apply lookup_insert.
    + rewrite lookup_insert_ne by exact Hne. rewrite <- HV, view_lookup.
      destruct (GetNode (sto s) k) as [l'|] eqn:E; [|reflexivity]. cbn.
      rewrite lookup_insert_ne; [reflexivity|]. intros ->. apply Hne. eapply wf_inj; eassumption.
Qed.

(** Allocating an object and putting it at path [p]. *)
Lemma sim_alloc_put s V p n :
  sim s V -> node_prefix n = p -> node_shape n ->
  let '(s1, l) := alloc s n in
  exists s2, put_node s1 p l = Ok s2 /\ sim s2 (<[p := n]> V) /\ at_path s2 l p /\
    forall k, k <> p -> GetNode (sto s2) k = GetNode (sto s) k.
Proof.
  intros (Hwf & HV) Hp Hs. cbn. pose proof Hwf as (Hw & Hn & Hg).
  destruct (PutNode_ok (sto s) p (next s) Hw) as (st & HP & Hw' & Hget).
  unfold put_node. cbn. rewrite HP. cbn. eexists. split; [reflexivity|].
  assert (Hfresh : forall k l, GetNode (sto s) k = Some l -> l <> next s).
  { intros k l Hk ->. destruct (Hg _ _ Hk) as (n0 & Hn0 & _). apply Hn in Hn0. lia. }
  split; [split|split].
  - split; [exact Hw'|]. split; cbn.
    + intros l' n'. destruct (decide (next s = l')) as [<-|Hne]; [lia|].
      rewrite lookup_insert_ne by exact Hne. intros H0. apply Hn in H0. lia.
    + intros k l' Hk. rewrite Hget in Hk. case_decide as Hd.
      * injection Hk as <-. exists n. rewrite lookup_insert. subst; auto.
      * rewrite lookup_insert_ne by (intros Hx; subst; eapply Hfresh; [exact Hk|reflexivity]).
        apply Hg, Hk.
  - apply map_eq. intros k. rewrite view_lookup. cbn. rewrite Hget.
    case_decide as Hd.
    + subst k. cbn. rewrite !lookup_insert. reflexivity.
    + rewrite (lookup_insert_ne V) by exact Hd. rewrite <- HV, view_lookup.
      destruct (GetNode (sto s) k) as [l'|] eqn:E; [|reflexivity]. cbn.
      apply lookup_insert_ne. intros Hx. subst. eapply Hfresh; [exact E|reflexivity].
  - unfold at_path. cbn. rewrite Hget. rewrite decide_True by reflexivity. reflexivity.
  - intros k Hk. cbn. rewrite Hget. rewrite decide_False by congruence. reflexivity.
Qed.

(** Putting the object back where it already is. *)
Lemma sim_put_same s V p l :
  sim s V -> at_path s l p ->
  exists s2, put_node s p l = Ok s2 /\ sim s2 V /\ heap s2 = heap s /\
    forall k, GetNode (sto s2) k = GetNode (sto s) k.
Proof.
  intros (Hwf & HV) Hat. pose proof Hwf as (Hw & Hn & Hg).
  destruct (PutNode_ok (sto s) p l Hw) as (st & HP & Hw' & Hget).
  unfold put_node. rewrite HP. cbn. eexists. split; [reflexivity|].
  assert (Hsame : forall k, GetNode st k = GetNode (sto s) k).
  { intros k. rewrite Hget. case_decide as Hd; [subst k; symmetry; exact Hat|reflexivity]. }
  split; [split|split; [reflexivity|exact Hsame]].
  - split; [exact Hw'|]. split; [exact Hn|]. cbn. intros k l' Hk. rewrite Hsame in Hk. apply Hg, Hk.
  - apply map_eq. intros k. rewrite <- HV, !view_lookup. cbn. rewrite Hsame. reflexivity.
Qed.

Lemma sim_del s V p :
  sim s V ->
  exists s2, del_node s p = Ok s2 /\ sim s2 (delete p V) /\ heap s2 = heap s /\
    forall k, k <> p -> GetNode (sto s2) k = GetNode (sto s) k.
Proof.
  intros (Hwf & HV). pose proof Hwf as (Hw & Hn & Hg).
  destruct (DelNode_ok (sto s) p Hw) as (st & HP & Hw' & Hget).
  unfold del_node. rewrite HP. cbn. eexists. split; [reflexivity|].
  split; [split|split; [reflexivity|]].
  - split; [exact Hw'|]. split; [exact Hn|]. cbn. intros k l' Hk. rewrite Hget in Hk.
    case_decide; [discriminate|]. apply Hg, Hk.
  - apply map_eq. intros k. rewrite view_lookup. cbn. rewrite Hget. case_decide as Hd.
    + subst k. rewrite lookup_delete. reflexivity.
    + rewrite lookup_delete_ne by exact Hd. rewrite <- HV, view_lookup. reflexivity.
  - intros k Hk. cbn. rewrite Hget, decide_False by congruence. reflexivity.
Qed.

(** ** The pure version *)
Definition get_branch (V : gmap nibbles node) (p : nibbles) : res (list child) :=
  match V !! p with Some (Branch _ cs) => Ok cs | _ => Panic end.

Fixpoint pinvalidate (V : gmap nibbles node) (current : nibbles) (path : list nibbles)
    : res (gmap nibbles node) :=
  match path with
  | [] => Ok V
  | p :: path' =>
      let? cs := get_branch V p in
      let? suffix := slice_from current (length p) in
      let? cs' := PutChild cs suffix zeroHash in
      pinvalidate (<[p := Branch p cs']> V) p path'
  end.

Fixpoint pprune (V : gmap nibbles node) (current : nibbles) (path : list nibbles)
    : res (gmap nibbles node) :=
  match path with
  | [] => Ok V
  | p :: path' =>
      let? cs := get_branch V p in
      let? d := index current (length p) in
      let? c := index cs (Z.to_nat d) in
      let cs' := <[Z.to_nat d := Child (c_suffix c) (c_hash c) false]> cs in
      let V1 := <[p := Branch p cs']> V in
      match filter (fun c => c_exists c = true) cs' with
      | [only] =>
          if bool_decide (0 < length p)%nat then pinvalidate (delete p V1) (p ++ c_suffix only) path'
          else pinvalidate V1 p path'
      | [] => if bool_decide (length p = 0)%nat then pinvalidate V1 p path' else pprune V1 p path'
      | _ => pinvalidate V1 p path'
      end
  end.

Fixpoint pupdate (fuel : nat) (V : gmap nibbles node) (nodePrefix prefix : nibbles) (value : bytes)
    (path : list nibbles) : res (gmap nibbles node) :=
  match fuel with
  | O => OutOfFuel
  | S fuel' =>
      if negb (PrefixOf nodePrefix prefix) then
        let pp := CommonPrefix nodePrefix prefix in
        let? suf1 := slice_from nodePrefix (length pp) in
        let? cs1 := PutChild (repeat zero_child 16) suf1 zeroHash in
        let? suf2 := slice_from prefix (length pp) in
        let? cs2 := PutChild cs1 suf2 zeroHash in
        pinvalidate (<[pp := Branch pp cs2]> (<[prefix := Leaf prefix value]> V)) pp path
      else if bytes_eqb nodePrefix prefix then
        match value with
        | [] => pprune (delete nodePrefix V) nodePrefix path
        | _ => pinvalidate (<[nodePrefix := Leaf nodePrefix value]> V) nodePrefix path
        end
      else
        let? cs := get_branch V nodePrefix in
        let? d := index prefix (length nodePrefix) in
        let? c := index cs (Z.to_nat d) in
        if c_exists c then
          pupdate fuel' V (nodePrefix ++ c_suffix c) prefix value (nodePrefix :: path)
        else
          let? suffix := slice_from prefix (length nodePrefix) in
          let? cs' := PutChild cs suffix zeroHash in
          pinvalidate (<[nodePrefix := Branch nodePrefix cs']> (<[prefix := Leaf prefix value]> V)) nodePrefix path
  end.

Lemma PutChild_shape p cs suffix h cs' :
  node_shape (Branch p cs) -> Forall is_nibble suffix ->
  PutChild cs suffix h = Ok cs' -> node_shape (Branch p cs').
Proof.
  intros (Hl & Hc) Hn. unfold PutChild. destruct suffix as [|d r]; [discriminate|].
  inversion Hn as [|? ? Hd _]; subst. unfold is_nibble in Hd.
  case_bool_decide as Hlt; [|discriminate]. intros E. injection E as <-. split.
  - rewrite insert_length. exact Hl.
  - intros i c. destruct (decide (i = Z.to_nat d)) as [->|Hne].
    + rewrite list_lookup_insert by exact Hlt. intros E _. injection E as <-. exists r. cbn.
      f_equal. lia.
    + rewrite list_lookup_insert_ne by congruence. apply Hc.
Qed.

Lemma slice_from_nibbles l n r : Forall is_nibble l -> slice_from l n = Ok r -> Forall is_nibble r.
Proof.
  unfold slice_from. intros Hl. case_bool_decide; [|discriminate]. intros E. injection E as <-.
  apply Forall_drop, Hl.
Qed.

Lemma zero_branch_shape p : node_shape (new_branch p).
Proof.
  split; [reflexivity|]. intros i c Hc Hx.
  apply elem_of_list_lookup_2, elem_of_list_In, repeat_spec in Hc. subst c. discriminate.
Qed.

(** Reading the branch object at a path. *)
Lemma sim_branch s V l p :
  sim s V -> at_path s l p ->
  res_rel (fun '(p', cs) cs' => p' = p /\ cs = cs' /\ node_shape (Branch p cs) /\ V !! p = Some (Branch p cs))
    (as_branch s l) (get_branch V p).
Proof.
  intros Hsim Hat. pose proof (sim_get s V p Hsim) as Hg. rewrite Hat in Hg.
  destruct Hg as (n & Hn & HV & Hp & Hs). unfold as_branch, get_branch. rewrite Hn, HV.
  destruct n as [p' cs|p' v]; cbn in *; [|exact I]. subst p'. auto.
Qed.

Lemma sim_invalidate path : forall ppath s V current,
  sim s V -> Forall2 (at_path s) path ppath -> Forall is_nibble current -> Forall (Forall is_nibble) ppath ->
  res_rel sim (invalidatePath s current path) (pinvalidate V current ppath).
Proof.
  induction path as [|l path IH]; intros ppath s V current Hsim Hpath Hcur Hpn;
    inversion Hpath as [|? p ? pp Hat Hrest]; subst; cbn [invalidatePath pinvalidate prune pprune]; [exact Hsim|].
  inversion Hpn as [|? ? Hp Hpn']; subst.
  eapply res_rel_bind; [apply sim_branch; eassumption|].
  intros (p' & cs) cs0 _ _ (-> & <- & Hsh & HVp).
  destruct (slice_from current (length p)) as [suf|e| |] eqn:Esuf; cbn [bind]; try exact I; [|exact eq_refl].
  destruct (PutChild cs suf zeroHash) as [cs'|e| |] eqn:Epc; cbn [bind]; try exact I; [|exact eq_refl].
  apply IH; [|exact Hrest|exact Hp|exact Hpn'].
  apply sim_write; [exact Hsim|exact Hat|reflexivity|].
  eapply PutChild_shape; [exact Hsh| |exact Epc]. eapply slice_from_nibbles; [|eassumption]; assumption.
Qed.

Lemma Forall2_at_path_mono s s' path ppath :
  Forall2 (at_path s) path ppath -> (forall k, k ∈ ppath -> GetNode (sto s') k = GetNode (sto s) k) ->
  Forall2 (at_path s') path ppath.
Proof.
  induction 1 as [|l p path ppath Hat Hrest IH]; intros Hk; constructor.
  - unfold at_path. rewrite Hk by left. exact Hat.
  - apply IH. intros k Hin. apply Hk. right. exact Hin.
Qed.

Lemma sim_prune path : forall ppath s V current,
  sim s V -> Forall2 (at_path s) path ppath -> NoDup ppath ->
  Forall is_nibble current -> Forall (Forall is_nibble) ppath ->
  (forall p cs i c, p ∈ ppath -> V !! p = Some (Branch p cs) -> cs !! i = Some c -> c_exists c = true ->
     Forall is_nibble (c_suffix c)) ->
  res_rel sim (prune s current path) (pprune V current ppath).
Proof.
  induction path as [|l path IH]; intros ppath s V current Hsim Hpath Hnd Hcur Hpn Hsuf;
    inversion Hpath as [|? p ? pp Hat Hrest]; subst; cbn [invalidatePath pinvalidate prune pprune]; [exact Hsim|].
  inversion Hpn as [|? ? Hp Hpn']; subst.
  apply NoDup_cons in Hnd as (Hnin & Hnd).
  eapply res_rel_bind; [apply sim_branch; eassumption|].
  intros (p' & cs) cs0 _ _ (-> & <- & Hsh & HVp).
  destruct (index current (length p)) as [d|e| |] eqn:Ed; cbn [bind]; try exact I; [|exact eq_refl].
  destruct (index cs (Z.to_nat d)) as [c|e| |] eqn:Ec; cbn [bind]; try exact I; [|exact eq_refl].
  set (cs' := <[Z.to_nat d := Child (c_suffix c) (c_hash c) false]> cs).
  assert (Hsh' : node_shape (Branch p cs')).
  { destruct Hsh as (Hl & Hc). split; [subst cs'; rewrite insert_length; exact Hl|].
    intros i c' Hc' Hx. subst cs'. destruct (decide (i = Z.to_nat d)) as [->|Hne].
    - apply list_lookup_insert_Some in Hc' as [(_ & <- & _)|(Hn & _)]; [discriminate|contradiction].
    - rewrite list_lookup_insert_ne in Hc' by congruence. eapply Hc; eassumption. }
  assert (Hsim1 : sim (write s l (Branch p cs')) (<[p := Branch p cs']> V)).
  { apply sim_write; auto. }
  assert (Hrest1 : Forall2 (at_path (write s l (Branch p cs'))) path pp) by exact Hrest.
  assert (Hat1 : at_path (write s l (Branch p cs')) l p) by exact Hat.
  (* the "nothing to be deleted" continuation *)
  assert (Hkeep : res_rel sim
     (let? s2 := put_node (write s l (Branch p cs')) p l in invalidatePath s2 p path)
     (pinvalidate (<[p := Branch p cs']> V) p pp)).
  { destruct (sim_put_same _ _ p l Hsim1 Hat1) as (s2 & -> & Hsim2 & _ & Hsame). cbn [bind].
    apply sim_invalidate; auto. eapply Forall2_at_path_mono; [exact Hrest1|]. intros k _. apply Hsame. }
  assert (Hcont : res_rel sim (prune (write s l (Branch p cs')) p path) (pprune (<[p := Branch p cs']> V) p pp)).
  { apply IH; auto. intros q cs1 i c1 Hq Hq1.
    rewrite lookup_insert_ne in Hq1; [|intros ->; contradiction].
    eapply Hsuf; [right; exact Hq|exact Hq1]. }
  destruct (filter (fun c => c_exists c = true) cs') as [|only [|x y]] eqn:Ef.
  - case_bool_decide; [exact Hkeep|exact Hcont].
  - case_bool_decide; [|exact Hkeep].
    destruct (sim_del _ _ p Hsim1) as (s2 & -> & Hsim2 & _ & Hother). cbn [bind].
    apply sim_invalidate; auto.
    + eapply Forall2_at_path_mono; [exact Hrest1|]. intros k Hk. apply Hother. intros ->. contradiction.
    + apply Forall_app. split; [exact Hp|].
      assert (Hin : only ∈ filter (fun c => c_exists c = true) cs') by (rewrite Ef; left).
      apply elem_of_list_filter in Hin as (Hx & Hin). apply elem_of_list_lookup in Hin as (i & Hi).
      subst cs'. destruct (decide (i = Z.to_nat d)) as [->|Hne].
      * apply list_lookup_insert_Some in Hi as [(_ & <- & _)|(Hn & _)]; [discriminate|contradiction].
      * rewrite list_lookup_insert_ne in Hi by congruence. eapply Hsuf; [left|exact HVp|exact Hi|exact Hx].
  - exact Hkeep.
Qed.

(** All suffixes of existing children consist of nibbles. *)
Definition suffixes_ok (V : gmap nibbles node) : Prop :=
  forall p cs i c, V !! p = Some (Branch p cs) -> cs !! i = Some c -> c_exists c = true ->
    Forall is_nibble (c_suffix c).

Lemma PrefixOf_prefix a b : PrefixOf a b = true <-> a `prefix_of` b.
Proof. apply PrefixOf_spec. Qed.

Lemma CommonPrefix_nibbles a b : Forall is_nibble a -> Forall is_nibble (CommonPrefix a b).
Proof.
  intros Ha. destruct (CommonPrefix_prefix a b) as ((r & E) & _). rewrite E in Ha.
  apply Forall_app in Ha. apply Ha.
Qed.

Lemma index_lookup {A} (l : list A) i : index l i = match l !! i with Some a => Ok a | None => Panic end.
Proof.
  unfold index. revert i. induction l as [|x l IH]; intros [|i]; cbn; auto.
Qed.

Lemma sim_update fuel : forall s V nodePrefix prefix value path ppath,
  sim s V -> suffixes_ok V -> Forall2 (at_path s) path ppath -> NoDup ppath ->
  Forall is_nibble prefix -> Forall is_nibble nodePrefix -> Forall (Forall is_nibble) ppath ->
  (forall p, p ∈ ppath -> exists d, p ++ [d] `prefix_of` nodePrefix /\ p ++ [d] `prefix_of` prefix) ->
  res_rel sim (update fuel s nodePrefix prefix value path) (pupdate fuel V nodePrefix prefix value ppath).
Proof.
  induction fuel as [|fuel IH]; intros s V np k v path ppath Hsim Hsuf Hpath Hnd Hk Hnp Hpn Hanc;
    cbn [update pupdate]; [exact I|].
  assert (Hknin : k ∉ ppath).
  { intros Hin. destruct (Hanc k Hin) as (d & _ & (r & E)).
    apply (f_equal length) in E. rewrite !app_length in E. cbn in E. lia. }
  destruct (PrefixOf np k) eqn:Epre; cbn [negb].
  - apply PrefixOf_prefix in Epre.
    destruct (bytes_eqb np k) eqn:Eeq.
    + apply bytes_eqb_eq in Eeq. subst np. destruct v as [|v0 v].
      * destruct (sim_del s V k Hsim) as (s1 & -> & Hsim1 & _ & Hother). cbn [bind].
        apply sim_prune; auto.
        -- eapply Forall2_at_path_mono; [exact Hpath|]. intros q Hq. apply Hother. intros ->. contradiction.
        -- intros p cs i c Hp HVp. rewrite lookup_delete_ne in HVp by (intros ->; contradiction).
           exact (Hsuf _ _ i c HVp).
      * pose proof (sim_alloc_put s V k (Leaf k (v0 :: v)) Hsim eq_refl I) as Hput.
        destruct (alloc s (Leaf k (v0 :: v))) as (s1 & lf). destruct Hput as (s2 & -> & Hsim2 & _ & Hother).
        cbn [bind]. apply sim_invalidate; auto.
        eapply Forall2_at_path_mono; [exact Hpath|]. intros q Hq. apply Hother. intros ->. contradiction.
    + apply bytes_eqb_neq in Eeq.
      pose proof (sim_get s V np Hsim) as Hg.
      destruct (GetNode (sto s) np) as [l|] eqn:El.
      2: { unfold get_branch. rewrite Hg. exact I. }
      assert (Hat : at_path s l np) by exact El.
      eapply res_rel_bind; [apply sim_branch; eassumption|].
      intros (p' & cs) cs0 _ _ (-> & <- & Hsh & HVp).
      rewrite !index_lookup.
      destruct (k !! length np) as [d|] eqn:Ed; cbn [bind]; [|exact I].
      rewrite index_lookup.
      destruct (cs !! Z.to_nat d) as [c|] eqn:Ec; cbn [bind]; [|exact I].
      assert (Hd : is_nibble d) by (eapply (Forall_lookup_1 _ k); eassumption).
      assert (Hnpd : np ++ [d] `prefix_of` k).
      { destruct Epre as (r & ->). rewrite lookup_app_r in Ed by lia. rewrite Nat.sub_diag in Ed.
        destruct r as [|d' r]; [discriminate|]. cbn in Ed. injection Ed as <-.
        exists r. rewrite <- app_assoc. reflexivity. }
      destruct (c_exists c) eqn:Ex.
      * destruct Hsh as (_ & Hsh). destruct (Hsh _ _ Ec Ex) as (r & Hr).
        assert (Hd' : Z.of_nat (Z.to_nat d) = d) by (unfold is_nibble in Hd; lia).
        rewrite Hd' in Hr.
        apply IH; [exact Hsim|exact Hsuf|constructor; [exact Hat|exact Hpath]| |exact Hk| |constructor; [exact Hnp|exact Hpn]|].
        -- apply NoDup_cons. split; [|exact Hnd]. intros Hin.
           destruct (Hanc np Hin) as (d' & (r' & E) & _).
           apply (f_equal length) in E. rewrite !app_length in E. cbn in E. lia.
        -- apply Forall_app. split; [exact Hnp|]. eapply Hsuf; eassumption.
        -- intros p Hp. apply elem_of_cons in Hp as [->|Hp].
           ++ exists d. split; [|exact Hnpd]. rewrite Hr. exists r. rewrite <- app_assoc. reflexivity.
           ++ destruct (Hanc p Hp) as (d' & (r1 & E1) & (r2 & E2)). exists d'.
              split; [|exists r2; exact E2]. rewrite E1. exists (r1 ++ c_suffix c). rewrite <- !app_assoc. reflexivity.
      * pose proof (sim_alloc_put s V k (Leaf k v) Hsim eq_refl I) as Hput.
        destruct (alloc s (Leaf k v)) as (s1 & lf). destruct Hput as (s2 & -> & Hsim2 & _ & Hother).
        cbn [bind].
        destruct (slice_from k (length np)) as [suf|e| |] eqn:Esl; cbn [bind]; try exact I; [|exact eq_refl].
        destruct (PutChild cs suf zeroHash) as [cs'|e| |] eqn:Epc; cbn [bind]; try exact I; [|exact eq_refl].
        assert (Hat2 : at_path s2 l np) by (unfold at_path; rewrite Hother by congruence; exact El).
        assert (Hsim3 : sim (write s2 l (Branch np cs')) (<[np := Branch np cs']> (<[k := Leaf k v]> V))).
        { apply sim_write; [exact Hsim2|exact Hat2|reflexivity|].
          eapply PutChild_shape; [exact Hsh| |exact Epc]. eapply slice_from_nibbles; [|eassumption]; assumption. }
        destruct (sim_put_same _ _ np l Hsim3 Hat2) as (s4 & -> & Hsim4 & _ & Hsame). cbn [bind].
        apply sim_invalidate; auto.
        eapply Forall2_at_path_mono; [exact Hpath|]. intros q Hq. rewrite Hsame. cbn.
        apply Hother. intros ->. contradiction.
  - pose proof (sim_alloc_put s V k (Leaf k v) Hsim eq_refl I) as Hput.
    destruct (alloc s (Leaf k v)) as (s1 & lf). destruct Hput as (s2 & -> & Hsim2 & _ & Hother).
    cbn [bind]. set (pp := CommonPrefix np k).
    destruct (slice_from np (length pp)) as [suf1|e| |] eqn:Es1; cbn [bind]; try exact I; [|exact eq_refl].
    destruct (PutChild (repeat zero_child 16) suf1 zeroHash) as [cs1|e| |] eqn:Ep1; cbn [bind]; try exact I; [|exact eq_refl].
    destruct (slice_from k (length pp)) as [suf2|e| |] eqn:Es2; cbn [bind]; try exact I; [|exact eq_refl].
    destruct (PutChild cs1 suf2 zeroHash) as [cs2|e| |] eqn:Ep2; cbn [bind]; try exact I; [|exact eq_refl].
    assert (Hsh2 : node_shape (Branch pp cs2)).
    { eapply PutChild_shape; [eapply PutChild_shape; [apply (zero_branch_shape pp)| |exact Ep1]| |exact Ep2].
      - eapply slice_from_nibbles; [|eassumption]; assumption.
      - eapply slice_from_nibbles; [|eassumption]; assumption. }
    pose proof (sim_alloc_put s2 _ pp (Branch pp cs2) Hsim2 eq_refl Hsh2) as Hput2.
    destruct (alloc s2 (Branch pp cs2)) as (s3 & npar). destruct Hput2 as (s4 & -> & Hsim4 & _ & Hother2).
    cbn [bind]. apply sim_invalidate; auto.
    + eapply Forall2_at_path_mono; [exact Hpath|]. intros q Hq.
      destruct (Hanc q Hq) as (d & (r1 & E1) & (r2 & E2)).
      rewrite Hother2.
      * apply Hother. intros ->. contradiction.
      * intros ->. destruct (CommonPrefix_greatest np k (pp ++ [d]) r1 r2 E1 E2) as (r & E).
        fold pp in E. apply (f_equal length) in E. rewrite !app_length in E. cbn in E. lia.
    + apply CommonPrefix_nibbles, Hnp.
Qed.

(** ** Hashing *)
Section WithHash.
  Variable H : bytes -> bytes.

  Definition phash_child (rec : gmap nibbles node -> nibbles -> res (gmap nibbles node * bytes))
      (prefix : nibbles) (V : gmap nibbles node) (i : nat) : res (gmap nibbles node) :=
    let? cs := get_branch V prefix in
    let? c := index cs i in
    if negb (c_exists c) then Ok V
    else if bytes_eqb (c_hash c) zeroHash then
      let? (V', h) := rec V (prefix ++ c_suffix c) in
      let? cs' := get_branch V' prefix in
      let? c' := index cs' i in
      Ok (<[prefix := Branch prefix (<[i := Child (c_suffix c') h (c_exists c')]> cs')]> V')
    else Ok V.

  Fixpoint phashes (fuel : nat) (V : gmap nibbles node) (prefix : nibbles)
      : res (gmap nibbles node * bytes) :=
    match fuel with
    | O => OutOfFuel
    | S fuel' =>
        match V !! prefix with
        | None => Panic
        | Some (Leaf p v) => let? h := leaf_hash H p v in Ok (V, h)
        | Some (Branch _ _) =>
            let? V1 := for_each (phash_child (phashes fuel') prefix) (seq 0 16) V in
            let? cs := get_branch V1 prefix in
            let? h := branch_hash H prefix cs in
            Ok (V1, h)
        end
    end.

  Definition same_map (s s' : state) : Prop := forall k, GetNode (sto s') k = GetNode (sto s) k.

  Lemma sim_for_each {S1 S2 A} (R : S1 -> S2 -> Prop) (f : S1 -> A -> res S1) (g : S2 -> A -> res S2) l :
    forall s1 s2, (forall a s1 s2, R s1 s2 -> res_rel R (f s1 a) (g s2 a)) ->
    R s1 s2 -> res_rel R (for_each f l s1) (for_each g l s2).
  Proof.
    induction l as [|a l IH]; intros s1 s2 Hf HR; cbn [for_each]; [exact HR|].
    eapply res_rel_bind; [apply Hf, HR|]. intros s1' s2' _ _ HR'. apply IH; assumption.
  Qed.

  Lemma upd_shape p cs i c h :
    node_shape (Branch p cs) -> cs !! i = Some c ->
    node_shape (Branch p (<[i := Child (c_suffix c) h (c_exists c)]> cs)).
  Proof.
    intros (Hl & Hc) Hi. split; [rewrite insert_length; exact Hl|].
    intros j c' Hj Hx. destruct (decide (i = j)) as [<-|Hne].
    - rewrite list_lookup_insert in Hj by (eapply lookup_lt_Some, Hi). injection Hj as <-.
      cbn in Hx |- *; exact (Hc _ _ Hi Hx).
    - rewrite list_lookup_insert_ne in Hj by exact Hne. eapply Hc; eassumption.
  Qed.

  Lemma sim_hash_child (rec : state -> nibbles -> res (state * bytes)) prec l prefix :
    (forall s V q, sim s V ->
       res_rel (fun '(s', h) '(V', h') => sim s' V' /\ h = h' /\ same_map s s') (rec s q) (prec V q)) ->
    forall s V i, sim s V -> at_path s l prefix ->
    res_rel (fun s' V' => sim s' V' /\ same_map s s')
      (hash_child rec l prefix s i) (phash_child prec prefix V i).
  Proof.
    intros Hrec s V i Hsim Hat. unfold hash_child, phash_child.
    eapply res_rel_bind; [apply sim_branch; eassumption|].
    intros (p' & cs) cs0 _ _ (-> & <- & Hsh & HVp).
    rewrite index_lookup. destruct (cs !! i) as [c|] eqn:Ec; cbn [bind]; [|exact I].
    destruct (negb (c_exists c)); [split; [exact Hsim|intros k; reflexivity]|].
    destruct (bytes_eqb (c_hash c) zeroHash); [|split; [exact Hsim|intros k; reflexivity]].
    eapply res_rel_bind; [apply Hrec, Hsim|].
    intros (s' & h) (V' & h') _ _ (Hsim' & <- & Hsame).
    assert (Hat' : at_path s' l prefix) by (unfold at_path; rewrite Hsame; exact Hat).
    eapply res_rel_bind; [apply sim_branch; eassumption|].
    intros (p' & cs') cs0 _ _ (-> & <- & Hsh' & HVp').
    rewrite index_lookup. destruct (cs' !! i) as [c'|] eqn:Ec'; cbn [bind]; [|exact I].
    split; [|intros k; cbn; apply Hsame].
    apply sim_write; [exact Hsim'|exact Hat'|reflexivity|]. apply upd_shape; assumption.
  Qed.

  Lemma sim_hashes fuel : forall s V q, sim s V ->
    res_rel (fun '(s', h) '(V', h') => sim s' V' /\ h = h' /\ same_map s s')
      (updateHashes H fuel s q) (phashes fuel V q).
  Proof.
    induction fuel as [|fuel IH]; intros s V q Hsim; cbn [updateHashes phashes]; [exact I|].
    pose proof (sim_get s V q Hsim) as Hg.
    destruct (GetNode (sto s) q) as [l|] eqn:El; [|rewrite Hg; exact I].
    destruct Hg as (n & Hn & HV & Hp & Hs). rewrite Hn, HV.
    destruct n as [p cs|p v]; cbn [node_prefix] in Hp; subst p.
    - assert (Hloop : res_rel (fun s' V' => sim s' V' /\ same_map s s')
        (for_each (hash_child (updateHashes H fuel) l q) (seq 0 16) s)
        (for_each (phash_child (phashes fuel) q) (seq 0 16) V)).
      { apply sim_for_each; [|split; [exact Hsim|intros k; reflexivity]].
        intros i s1 V1 (Hsim1 & Hsame1).
        eapply res_rel_mono; [|apply sim_hash_child; [exact IH|exact Hsim1|unfold at_path; rewrite Hsame1; exact El]].
        intros s2 V2 (H2 & Hs2). split; [exact H2|]. intros k. rewrite Hs2. apply Hsame1. }
      eapply res_rel_bind; [exact Hloop|]. intros s1 V1 _ _ (Hsim1 & Hsame1).
      assert (Hat1 : at_path s1 l q) by (unfold at_path; rewrite Hsame1; exact El).
      eapply res_rel_bind; [apply sim_branch; eassumption|].
      intros (p' & cs') cs0 _ _ (-> & <- & Hsh' & HVp').
      destruct (sim_put_same _ _ q l Hsim1 Hat1) as (s2 & -> & Hsim2 & _ & Hsame2). cbn [bind].
      destruct (branch_hash H q cs') as [h|e| |]; cbn [bind]; try exact I; [|exact eq_refl].
      split; [exact Hsim2|]. split; [reflexivity|]. intros k. rewrite Hsame2. apply Hsame1.
    - destruct (leaf_hash H q v) as [h|e| |]; cbn [bind]; try exact I; [|exact eq_refl].
      split; [exact Hsim|]. split; [reflexivity|]. intros k. reflexivity.
  Qed.

  (** *** The three operations *)
  Definition pGetEntry (V : gmap nibbles node) (key : bytes) : res (option bytes) :=
    match V !! KeyToNibbles key with
    | None => Ok None
    | Some (Leaf _ v) => Ok (Some v)
    | _ => Panic
    end.

  Definition pHash (V : gmap nibbles node) : res bytes :=
    let? cs := get_branch V [] in branch_hash H [] cs.

  Definition pupdateEntry (V : gmap nibbles node) (key value : bytes) : res (gmap nibbles node * bool) :=
    let prefix := KeyToNibbles key in
    let go := let? V' := pupdate tree_fuel V [] prefix value [] in Ok (V', true) in
    match V !! prefix with
    | None => match value with [] => Ok (V, false) | _ => go end
    | Some (Leaf _ v) => if bytes_eqb v value then Ok (V, false) else go
    | _ => go
    end.

  Definition pPutEntry (V : gmap nibbles node) (key value : bytes) : res (gmap nibbles node * bool) :=
    let? (V1, changed) := pupdateEntry V key value in
    let? (V2, _) := phashes tree_fuel V1 [] in
    Ok (V2, changed).

  Lemma sim_GetEntry s V key : sim s V -> GetEntry s key = pGetEntry V key.
  Proof.
    intros Hsim. unfold GetEntry, pGetEntry. pose proof (sim_get s V (KeyToNibbles key) Hsim) as Hg.
    destruct (GetNode (sto s) (KeyToNibbles key)) as [l|]; [|rewrite Hg; reflexivity].
    destruct Hg as (n & -> & -> & _). destruct n; reflexivity.
  Qed.

  Lemma sim_Hash s V : sim s V -> Hash H s = pHash V.
  Proof.
    intros Hsim. unfold Hash, pHash. pose proof (sim_get s V [] Hsim) as Hg.
    destruct (GetNode (sto s) []) as [l|]; [|unfold get_branch; rewrite Hg; reflexivity].
    destruct Hg as (n & Hn & HV & Hp & _). unfold as_branch, get_branch. rewrite Hn, HV.
    destruct n as [p cs|p v]; cbn [node_prefix] in Hp; [subst p|]; reflexivity.
  Qed.

  Lemma sim_updateEntry s V key value :
    sim s V -> suffixes_ok V -> bytes_ok key ->
    res_rel (fun '(s', b) '(V', b') => sim s' V' /\ b = b') (updateEntry s key value) (pupdateEntry V key value).
  Proof.
    intros Hsim Hsuf Hkey. unfold updateEntry, pupdateEntry.
    assert (Hgo : res_rel (fun '(s', b) '(V', b') => sim s' V' /\ b = b')
      (let? s' := update tree_fuel s [] (KeyToNibbles key) value [] in Ok (s', true))
      (let? V' := pupdate tree_fuel V [] (KeyToNibbles key) value [] in Ok (V', true))).
    { eapply res_rel_bind; [apply sim_update; try eassumption; try constructor|].
      - apply KeyToNibbles_ok, Hkey.
      - intros p Hp. inversion Hp.
      - intros s' V' _ _ Hs. split; [exact Hs|reflexivity]. }
    assert (Hno : res_rel (fun '(s', b) '(V', b') => sim s' V' /\ b = b') (Ok (s, false)) (Ok (V, false)))
      by (split; [exact Hsim|reflexivity]).
    pose proof (sim_get s V (KeyToNibbles key) Hsim) as Hg.
    destruct (GetNode (sto s) (KeyToNibbles key)) as [l|].
    - destruct Hg as (n & -> & -> & _). destruct n as [p cs|p v]; [exact Hgo|].
      destruct (bytes_eqb v value); [exact Hno|exact Hgo].
    - rewrite Hg. destruct value; [exact Hno|exact Hgo].
  Qed.

  Lemma sim_PutEntry s V key value :
    sim s V -> suffixes_ok V -> bytes_ok key ->
    res_rel (fun '(s', b) '(V', b') => sim s' V' /\ b = b') (PutEntry H s key value) (pPutEntry V key value).
  Proof.
    intros Hsim Hsuf Hkey. unfold PutEntry, pPutEntry.
    eapply res_rel_bind; [apply sim_updateEntry; eassumption|].
    intros (s1 & b) (V1 & b') _ _ (Hsim1 & <-).
    eapply res_rel_bind; [apply sim_hashes, Hsim1|].
    intros (s2 & h) (V2 & h') _ _ (Hsim2 & _ & _). split; [exact Hsim2|reflexivity].
  Qed.
End WithHash.
