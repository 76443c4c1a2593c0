(** Lemmas about the codecs of package wire. *)
From Coq Require Import ZArith List Lia Bool String.
Import ListNotations.
From Verif.Model Require Import Base Address Beserial Wire.
From Verif.Spec Require Import BeserialSpec WireSpec.
From Verif.Proofs Require Import BaseFacts BeserialFacts.
From Verif.Props Require Import BeserialProps.
Open Scope Z_scope.

(** ** Decoded values are typed *)
Fixpoint typed_codecs (t : ty) : Prop :=
  match t with
  | TPtr t | TArray _ t | TSlice t => typed_codecs t
  | TStruct fs => (fix all (fs : list (option bytes * ty)) : Prop :=
                     match fs with [] => True | (_, t) :: fs => typed_codecs t /\ all fs end) fs
  | TCustom c t => forall dst d v n, bytes_ok d -> cd_unmarshal c dst d = Ok (v, n) -> typed t v
  | _ => True
  end.
Fixpoint all_typed_codecs (fs : list (option bytes * ty)) : Prop :=
  match fs with [] => True | (_, t) :: fs => typed_codecs t /\ all_typed_codecs fs end.

Lemma dec_n_typed t f n : (forall d s v s', bytes_ok (data s) -> f d s = (Ok v, s') -> typed t v) -> (forall d, advancing (f d)) ->
  forall dsts s vs s', bytes_ok (data s) -> dec_n f n dsts s = (Ok vs, s') -> List.length vs = n /\ Forall (typed t) vs.
Proof.
  intros Hf Ha. induction n as [|n IH]; intros dsts s vs s' Hb E; cbn [dec_n] in E.
  - injection E as <- _. split; [reflexivity|constructor].
  - apply mbind_ok in E as (v & s1 & E1 & E). apply mbind_ok in E as (vs1 & s2 & E2 & E). injection E as <- _.
    destruct (IH _ _ _ _ (adv_bytes _ _ (Ha _ _ _ _ E1) Hb) E2) as (Hl & Ht). split; [cbn; congruence|].
    constructor; [exact (Hf _ _ _ _ Hb E1)|exact Ht].
Qed.
Lemma pop_bytes n s b s' : bytes_ok (data s) -> pop n s = (Ok b, s') -> bytes_ok b /\ (0 <= n -> List.length b = Z.to_nat n) /\ bytes_ok (data s').
Proof.
  unfold pop. intros Hb E. destruct (Z.ltb_spec (zlen (data s)) n); [discriminate|]. injection E as <- <-.
  split; [apply bytes_ok_firstn; exact Hb|]. split; [|cbn [data]; apply bytes_ok_skipn; exact Hb].
  intros Hn. rewrite firstn_length. unfold zlen in *. lia.
Qed.
Lemma typed_vbytes b : bytes_ok b -> Forall (typed (TNum U8)) (map VNum b).
Proof. induction 1; constructor; [exact H|exact IHForall]. Qed.

Lemma value_typed t : well_declared (fun _ => True) t -> typed_codecs t -> forall ts dst s v s', bytes_ok (data s) -> value t ts dst s = (Ok v, s') -> typed t v.
Proof.
  induction t as [|k| |t IH|m t IH|t IH|fs IH| |c t IH] using ty_ind'; intros Hw Hc ts dst s v s' Hb E.
  - cbn [value] in E. apply mbind_ok in E as (b & s1 & E1 & E). destruct b as [|[|[]|] []]; try discriminate; injection E as <- _; exact I.
  - cbn [value] in E. apply mbind_ok in E as (z & s1 & E1 & E). injection E as <- _. cbn [typed]. apply to_kind_range.
  - cbn [value] in E. apply mbind_ok in E as (u & s1 & E1 & E). apply mbind_ok in E as (b & s2 & E2 & E). injection E as <- _. exact I.
  - destruct Hw as (Hi & Hw). rewrite value_ptr in E by exact Hi. cbv zeta in E. cbn [typed_codecs] in Hc.
    assert (G : forall s s', bytes_ok (data s) -> (do v <- value t ts (zero t); ret (VPtr (Some v))) s = (Ok v, s') -> typed (TPtr t) v).
    { clear E Hb s s'. intros s s' Hb E. apply mbind_ok in E as (v1 & s1 & E1 & E). injection E as <- _. exact (IH Hw Hc ts _ _ _ _ Hb E1). }
    destruct (optional ts); [|exact (G _ _ Hb E)]. apply mbind_ok in E as (b & s1 & E1 & E).
    apply pop_bytes in E1 as (_ & _ & Hb1); [|exact Hb].
    destruct b as [|[|[]|] []]; try discriminate; [injection E as <- _; exact I|exact (G _ _ Hb1 E)].
  - destruct Hw as (Hok & Hw). cbn [value] in E. destruct (is_u8 t) eqn:Eu.
    + pose proof (u8_num t Hok Eu) as ->. cbn [is_custom] in E. apply mbind_ok in E as (b & s1 & E1 & E). injection E as <- _.
      apply pop_bytes in E1 as (Hb1 & Hl & _); [|exact Hb]. cbn [typed]. split; [rewrite map_length, Hl by lia; lia|]. apply typed_vbytes; exact Hb1.
    + apply mbind_ok in E as (vs & s1 & E1 & E). injection E as <- _. cbn [typed].
      apply (dec_n_typed t) in E1; [exact E1| |intros; apply adv_value|exact Hb].
      intros d s0 v0 s0' Hb0 E0. exact (IH Hw Hc _ _ _ _ _ Hb0 E0).
  - destruct Hw as (Hok & Hw). cbn [value] in E. apply mbind_ok in E as (u & s1 & E1 & E).
    pose proof (adv_bytes _ _ (adv_read_len ts _ _ _ E1) Hb) as Hb1.
    destruct (is_u8 t) eqn:Eu.
    + pose proof (u8_num t Hok Eu) as ->. apply mbind_ok in E as (b & s2 & E2 & E). injection E as <- _.
      apply pop_bytes in E2 as (Hb2 & _ & _); [|exact Hb1]. cbn [typed]. apply typed_vbytes; exact Hb2.
    + destruct (zlen (data s1) <? u); [discriminate|]. apply mbind_ok in E as (? & s2 & E2 & E). apply mbind_ok in E as (vs & s3 & E3 & E).
      injection E as <- _. cbn [typed]. injection E2 as _ <-.
      apply (dec_n_typed t) in E3; [apply E3| |intros; apply adv_value|exact Hb1].
      intros d s0 v0 s0' Hb0 E0. exact (IH Hw Hc _ _ _ _ _ Hb0 E0).
  - rewrite value_struct in E. apply mbind_ok in E as (vs & s1 & E & E'). injection E' as <- _.
    change (all_typed fs vs). change (all_declared (fun _ => True) fs) in Hw. change (all_typed_codecs fs) in Hc.
    revert vs s Hb E. generalize (elems_of dst). induction IH as [|(tag & t) fs Ht Hfs IHfs]; intros dsts vs s Hb E; cbn [value_fields] in E.
    + injection E as <- _. exact I.
    + apply mbind_ok in E as (ts0 & s2 & E2 & E). injection E2 as E2 <-. apply mbind_ok in E as (v & s3 & E3 & E).
      apply mbind_ok in E as (vs' & s4 & E4 & E). injection E as <- E5. destruct Hw as (_ & Hw1 & Hw2). destruct Hc as (Hc1 & Hc2).
      split; [exact (Ht Hw1 Hc1 _ _ _ _ _ Hb E3)|]. apply (IHfs Hw2 Hc2 (List.tl dsts) _ s3); [|congruence].
      exact (adv_bytes _ _ (adv_value t ts0 _ _ _ _ E3) Hb).
  - discriminate.
  - cbn [value] in E. unfold call_unmarshal in E. destruct (cd_unmarshal c dst (data s)) as [(v1 & n)|e| |] eqn:Ec; try discriminate.
    destruct (n <? 0); [discriminate|]. destruct (zlen (data s) <? n); [discriminate|]. injection E as <- _. exact (Hc _ _ _ _ Hb Ec).
Qed.

(** ** Conversions *)
Lemma bytes_of_vbytes b : bytes_of (vbytes b) = b.
Proof. unfold bytes_of, vbytes. rewrite map_map. cbn. apply map_id. Qed.
Lemma typed_num k v : typed (TNum k) v -> v = VNum (num_of v) /\ in_range k (num_of v).
Proof. destruct v; try contradiction. auto. Qed.
Lemma typed_u8s vs : Forall (typed (TNum U8)) vs -> VList vs = vbytes (bytes_of (VList vs)) /\ bytes_ok (bytes_of (VList vs)).
Proof.
  cbn [bytes_of]. unfold vbytes, bytes_ok. induction 1 as [|v vs Hv _ (E & IH)]; [split; [reflexivity|constructor]|].
  destruct (typed_num _ _ Hv) as (Ev & Hr). injection E as E. split; [cbn [map]; rewrite <- Ev; congruence|].
  cbn [map]. constructor; [exact Hr|exact IH].
Qed.
Lemma typed_bytesN n v : typed (bytesN n) v -> v = vbytes (bytes_of v) /\ array n (bytes_of v).
Proof.
  destruct v as [| | | |vs| | |]; try contradiction. intros (Hl & Hv). destruct (typed_u8s vs Hv) as (E & Hb).
  split; [exact E|]. split; [cbn; rewrite map_length; exact Hl|exact Hb].
Qed.
Lemma typed_blob v : typed (TSlice (TNum U8)) v -> v = vbytes (bytes_of v) /\ bytes_ok (bytes_of v).
Proof. destruct v as [| | | |vs| | |]; try contradiction. intros Hv. apply typed_u8s. exact Hv. Qed.

Lemma encodable_vbytes b : bytes_ok b -> Forall (encodable (TNum U8) no_tags) (map VNum b).
Proof. induction 1; constructor; [exact H|exact IHForall]. Qed.
Lemma encodable_array n ts b : array n b -> encodable (bytesN n) ts (vbytes b).
Proof.
  intros (Hl & Hb). cbn [encodable bytesN]. unfold vbytes. split; [intros _; reflexivity|].
  split; [rewrite map_length; exact Hl|apply encodable_vbytes; exact Hb].
Qed.
Lemma encodable_blob k ts b : lenTag ts = Some k -> signed k = false -> bytes_ok b -> zlen b < 256 ^ Z.of_nat (width k) -> zlen b < 2 ^ 63 ->
  encodable (TSlice (TNum U8)) ts (vbytes b).
Proof.
  intros Hk Hs Hb Hl Hi. cbn [encodable]. unfold vbytes. split; [intros _; reflexivity|]. split; [reflexivity|].
  split; [|apply encodable_vbytes; exact Hb]. exists k. split; [exact Hk|]. unfold len_fits. rewrite map_length. auto.
Qed.
Lemma encodable_num k ts z : in_range k z -> encodable (TNum k) ts (VNum z).
Proof. auto. Qed.

Section TypedCodec.
  Context {A : Type} (tv : A -> val) (ov : val -> A) (unm : A -> bytes -> res (A * Z)) (mar : A -> bytes -> res (bytes * option error)).
  Hypothesis Hov : forall a, ov (tv a) = a.
  Lemma typed_codec_safe :
    (forall a d, bytes_ok d -> match unm a d with Ok (_, n) => 0 <= n <= zlen d | Err _ => True | _ => False end) ->
    codec_safe (typed_codec tv ov unm mar).
  Proof.
    intros Hs dst d Hd. cbn [typed_codec cd_unmarshal]. specialize (Hs (ov dst) d Hd).
    destruct (unm (ov dst) d) as [(a & n)|e| |]; cbn [bind]; exact Hs.
  Qed.
  Lemma typed_codec_canonical :
    (forall a d a' n, bytes_ok d -> unm a d = Ok (a', n) -> 0 <= n <= zlen d /\ forall b, mar a' b = Ok (b ++ firstn (Z.to_nat n) d, None)) ->
    codec_canonical (typed_codec tv ov unm mar).
  Proof.
    intros Hc dst d v n Hd E. cbn [typed_codec cd_unmarshal] in E.
    destruct (unm (ov dst) d) as [(a & m)|e| |] eqn:Eu; try discriminate. cbn [bind] in E. injection E as <- <-.
    destruct (Hc _ _ _ _ Hd Eu) as (Hn & Hm). split; [exact Hn|]. intros b. cbn [typed_codec cd_marshal]. rewrite Hov. apply Hm.
  Qed.
  Lemma typed_codec_encodes a e :
    (forall b, mar a b = Ok (b ++ e, None)) -> (forall dst rest, unm dst (e ++ rest) = Ok (a, zlen e)) ->
    codec_encodes (typed_codec tv ov unm mar) (tv a) e.
  Proof.
    intros Hm Hu. split.
    - intros b. cbn. rewrite Hov. apply Hm.
    - intros dst rest. cbn. rewrite Hu. reflexivity.
  Qed.
  Lemma typed_codec_typed t : (forall a d a' n, bytes_ok d -> unm a d = Ok (a', n) -> typed t (tv a')) ->
    typed_codecs (TCustom (typed_codec tv ov unm mar) t).
  Proof.
    intros Ht dst d v n Hd E. cbn in E. destruct (unm (ov dst) d) as [(a & m)|e| |] eqn:Eu; try discriminate.
    cbn in E. injection E as <- _. exact (Ht _ _ _ _ Hd Eu).
  Qed.
End TypedCodec.

Lemma zlen_app {A} (a b : list A) : zlen (a ++ b) = zlen a + zlen b.
Proof. unfold zlen. rewrite app_length. lia. Qed.
Lemma zlen_nonneg {A} (a : list A) : 0 <= zlen a.
Proof. unfold zlen. lia. Qed.
Lemma zlen_cons {A} (x : A) a : zlen (x :: a) = 1 + zlen a.
Proof. unfold zlen. cbn [List.length]. lia. Qed.
Lemma firstn_app_len {A} n (a b : list A) : List.length a = n -> firstn n (a ++ b) = a.
Proof. intros <-. rewrite firstn_app, firstn_all, Nat.sub_diag, app_nil_r. reflexivity. Qed.
Lemma skipn_app_len {A} n (a b : list A) : List.length a = n -> skipn n (a ++ b) = b.
Proof. intros <-. rewrite skipn_app, skipn_all, Nat.sub_diag. reflexivity. Qed.

(** ** Hash *)
Lemma hash_of_v h : hash_of (v_hash h) = h.
Proof. destruct h as [x y]. unfold hash_of, v_hash. cbn [fld nth num_of Algorithm Bytes]. rewrite bytes_of_vbytes. reflexivity. Qed.
Lemma hash_unm_ok a d h n : bytes_ok d -> Hash_Unmarshal a d = Ok (h, n) -> n = 33 /\ 33 <= zlen d /\ hash_ok h /\ Algorithm h :: Bytes h = firstn 33 d.
Proof.
  destruct d as [|x d]; [discriminate|]. unfold Hash_Unmarshal. intros Hd. destruct (Z.ltb_spec (zlen d) 32); [discriminate|].
  intros E. assert (h = MkHash x (firstn 32 d) /\ n = 33) as (-> & ->) by (split; congruence). clear E.
  rewrite zlen_cons. apply Forall_inv in Hd as Hx. apply Forall_inv_tail in Hd.
  split; [reflexivity|]. split; [lia|]. split; [|reflexivity]. split; [exact Hx|]. change (array 32 (firstn 32 d)). split; [|apply bytes_ok_firstn; exact Hd].
  rewrite firstn_length. unfold zlen in *. lia.
Qed.
Lemma hash_safe : codec_safe hash_codec.
Proof.
  apply typed_codec_safe. intros a d Hd. destruct (Hash_Unmarshal a d) as [(h & n)|e| |] eqn:E; [|exact I| |].
  - apply hash_unm_ok in E; [|exact Hd]. lia.
  - destruct d; cbn in E; [discriminate|]. destruct (_ <? _); discriminate.
  - destruct d; cbn in E; [discriminate|]. destruct (_ <? _); discriminate.
Qed.
Lemma hash_canonical : codec_canonical hash_codec.
Proof.
  apply typed_codec_canonical; [exact hash_of_v|]. intros a d h n Hd E. apply hash_unm_ok in E as (-> & Hl & _ & Eh); [|exact Hd].
  split; [lia|]. intros b. unfold Hash_Marshal. change (Z.to_nat 33) with 33%nat. rewrite <- Eh, <- app_assoc. reflexivity.
Qed.
Lemma hash_typed : typed_codecs ty_hash.
Proof.
  apply typed_codec_typed. intros a d h n Hd E. apply hash_unm_ok in E as (_ & _ & (Ha & Hl & Hb) & _); [|exact Hd].
  cbn. split; [exact Ha|]. split; [|exact I]. split; [rewrite map_length; exact Hl|apply typed_vbytes; exact Hb].
Qed.
Lemma hash_encodes h : hash_ok h -> codec_encodes hash_codec (v_hash h) (Algorithm h :: Bytes h).
Proof.
  intros (Ha & Hl & Hb). apply typed_codec_encodes; [exact hash_of_v| |].
  - intros b. unfold Hash_Marshal. rewrite <- app_assoc. reflexivity.
  - intros dst rest. cbn [app Hash_Unmarshal]. destruct (Z.ltb_spec (zlen (Bytes h ++ rest)) 32) as [Hlt|_].
    + rewrite zlen_app in Hlt. unfold zlen at 1 in Hlt. rewrite Hl in Hlt. pose proof (zlen_nonneg rest). lia.
    + rewrite firstn_app_len by exact Hl. rewrite zlen_cons. unfold zlen. rewrite Hl. destruct h. reflexivity.
Qed.

(** ** Bit sets *)
Lemma bitset_of_v bs : bitset_of (v_bitset bs) = bs.
Proof. destruct bs as [x y]. unfold bitset_of, v_bitset. cbn [fld nth num_of Len Bits]. rewrite bytes_of_vbytes. reflexivity. Qed.
Lemma bitset_unm_ok a d bs n : bytes_ok d -> BitSet_Unmarshal a d = Ok (bs, n) ->
  n = 1 + w8 (Len bs + 7) / 8 /\ n <= zlen d /\ u8 (Len bs) /\ bytes_ok (Bits bs) /\ zlen (Bits bs) = w8 (Len bs + 7) / 8 /\
  Len bs :: Bits bs = firstn (Z.to_nat n) d.
Proof.
  destruct d as [|x d]; [discriminate|]. unfold BitSet_Unmarshal. intros Hd. cbv zeta.
  destruct (Z.ltb_spec (zlen d) (w8 (x + 7) / 8)); [discriminate|].
  intros E. assert (bs = MkBitSet x (firstn (Z.to_nat (w8 (x + 7) / 8)) d) /\ n = 1 + w8 (x + 7) / 8) as (-> & ->) by (split; congruence). clear E.
  rewrite zlen_cons. apply Forall_inv in Hd as Hx. apply Forall_inv_tail in Hd. cbn [Len Bits].
  assert (0 <= w8 (x + 7) / 8) by (apply Z.div_pos; [apply Z.mod_pos_bound; reflexivity|lia]).
  split; [reflexivity|]. split; [lia|]. split; [exact Hx|]. split; [apply bytes_ok_firstn; exact Hd|].
  split; [unfold zlen in *; rewrite firstn_length; lia|]. replace (Z.to_nat (1 + w8 (x + 7) / 8)) with (S (Z.to_nat (w8 (x + 7) / 8))) by lia.
  reflexivity.
Qed.
Lemma bitset_unm_total a d : (exists bs n, BitSet_Unmarshal a d = Ok (bs, n)) \/ BitSet_Unmarshal a d = Err EUnexpectedEOF.
Proof. destruct d; cbn; [auto|]. destruct (_ <? _); eauto. Qed.
Lemma bitset_safe : codec_safe bitset_codec.
Proof.
  apply typed_codec_safe. intros a d Hd. destruct (bitset_unm_total a d) as [(bs & n & E)|E]; rewrite E; [|exact I].
  apply bitset_unm_ok in E; [|exact Hd]. pose proof (zlen_nonneg (Bits bs)). lia.
Qed.
Lemma bitset_canonical : codec_canonical bitset_codec.
Proof.
  apply typed_codec_canonical; [exact bitset_of_v|]. intros a d h n Hd E.
  apply bitset_unm_ok in E as (Hn & Hl & _ & _ & Hz & Eh); [|exact Hd]. pose proof (zlen_nonneg (Bits h)).
  split; [lia|]. intros b. unfold BitSet_Marshal. rewrite <- Eh, <- app_assoc. reflexivity.
Qed.
Lemma bitset_typed_val bs : u8 (Len bs) -> bytes_ok (Bits bs) -> typed (TStruct [field (TNum U8); field (TSlice (TNum U8))]) (v_bitset bs).
Proof. intros H1 H2. cbn. split; [exact H1|]. split; [|exact I]. apply typed_vbytes. exact H2. Qed.
Lemma bitset_typed : typed_codecs ty_bitset.
Proof.
  apply typed_codec_typed. intros a d h n Hd E. apply bitset_unm_ok in E as (_ & _ & H1 & H2 & _); [|exact Hd]. apply bitset_typed_val; assumption.
Qed.
Lemma ceil_small n : 0 <= n <= 248 -> w8 (n + 7) = n + 7.
Proof. intros. apply Z.mod_small. unfold two8. lia. Qed.
Lemma bitset_unm_enc a bs rest : bitset_ok bs -> BitSet_Unmarshal a ((Len bs :: Bits bs) ++ rest) = Ok (bs, 1 + zlen (Bits bs)).
Proof.
  intros (Hl & Hb & Hz). cbn [app BitSet_Unmarshal]. cbv zeta. rewrite ceil_small, <- Hz by exact Hl.
  destruct (Z.ltb_spec (zlen (Bits bs ++ rest)) (zlen (Bits bs))) as [Hlt|_].
  - rewrite zlen_app in Hlt. pose proof (zlen_nonneg rest). lia.
  - rewrite firstn_app_len by (unfold zlen; lia). destruct bs. reflexivity.
Qed.
Lemma bitset_encodes bs : bitset_ok bs -> codec_encodes bitset_codec (v_bitset bs) (Len bs :: Bits bs).
Proof.
  intros Hb. apply typed_codec_encodes; [exact bitset_of_v| |].
  - intros b. unfold BitSet_Marshal. rewrite <- app_assoc. reflexivity.
  - intros dst rest. rewrite bitset_unm_enc by exact Hb. rewrite zlen_cons. reflexivity.
Qed.

(** ** Merkle paths *)
Lemma map_bytes_of hs : map bytes_of (map vbytes hs) = hs.
Proof. rewrite map_map. erewrite map_ext; [apply map_id|]. intros. apply bytes_of_vbytes. Qed.
Lemma path_of_v p : path_of (v_path p) = p.
Proof. destruct p as [x y]. unfold path_of, v_path. cbn [fld nth list_of Branches Hashes]. rewrite bitset_of_v, map_bytes_of. reflexivity. Qed.
Lemma read_nodes_ok n : forall b hs b', bytes_ok b -> read_nodes n b = Ok (hs, b') ->
  List.length hs = n /\ Forall (array 32) hs /\ b = List.concat hs ++ b'.
Proof.
  induction n as [|n IH]; intros b hs b' Hb E; cbn [read_nodes] in E.
  - injection E as <- <-. split; [reflexivity|]. split; [constructor|reflexivity].
  - destruct (Z.ltb_spec (zlen b) 32); [discriminate|]. destruct (read_nodes n (skipn 32 b)) as [(hs' & b1)|e| |] eqn:E1; try discriminate.
    cbn [bind] in E. assert (hs = firstn 32 b :: hs' /\ b' = b1) as (-> & ->) by (split; congruence). clear E.
    destruct (IH _ _ _ (bytes_ok_skipn 32 _ Hb) E1) as (H1 & H2 & H3).
    split; [cbn; congruence|]. split; [constructor; [split; [rewrite firstn_length; unfold zlen in *; lia|apply bytes_ok_firstn; exact Hb]|exact H2]|].
    cbn [List.concat]. rewrite <- app_assoc, <- H3. symmetry. apply firstn_skipn.
Qed.
Lemma read_nodes_total n : forall b, (exists r, read_nodes n b = Ok r) \/ read_nodes n b = Err EUnexpectedEOF.
Proof.
  induction n as [|n IH]; intros b; cbn [read_nodes]; [eauto|]. destruct (_ <? _); [auto|].
  destruct (IH (skipn 32 b)) as [((hs & b') & ->)| ->]; cbn [bind]; eauto.
Qed.
Lemma read_nodes_enc hs rest : Forall (array 32) hs -> read_nodes (List.length hs) (List.concat hs ++ rest) = Ok (hs, rest).
Proof.
  induction 1 as [|h hs (Hl & Hb) _ IH]; [reflexivity|]. cbn [List.length read_nodes List.concat]. rewrite <- app_assoc.
  destruct (Z.ltb_spec (zlen (h ++ List.concat hs ++ rest)) 32) as [Hlt|_].
  - rewrite zlen_app in Hlt. unfold zlen at 1 in Hlt. rewrite Hl in Hlt. pose proof (zlen_nonneg (List.concat hs ++ rest)). lia.
  - rewrite skipn_app_len, firstn_app_len by exact Hl. rewrite IH. reflexivity.
Qed.
Lemma path_unm_ok a d p n : bytes_ok d -> MerklePath_Unmarshal a d = Ok (p, n) ->
  0 <= n <= zlen d /\ u8 (Len (Branches p)) /\ bytes_ok (Bits (Branches p)) /\ zlen (Bits (Branches p)) = w8 (Len (Branches p) + 7) / 8 /\
  zlen (Hashes p) = Len (Branches p) /\ Forall (array 32) (Hashes p) /\
  (Len (Branches p) :: Bits (Branches p)) ++ List.concat (Hashes p) = firstn (Z.to_nat n) d.
Proof.
  intros Hd. unfold MerklePath_Unmarshal. destruct (BitSet_Unmarshal (Branches a) d) as [(bs & m)|e| |] eqn:Eb; try discriminate.
  cbn [bind]. apply bitset_unm_ok in Eb as (Hm & Hl & Hu & Hb & Hz & Ef); [|exact Hd].
  destruct (read_nodes (Z.to_nat (Len bs)) (skipn (Z.to_nat m) d)) as [(hs & b')|e| |] eqn:En; try discriminate.
  cbn [bind]. intros E. injection E as <- <-. cbn [Branches Hashes].
  apply read_nodes_ok in En as (H1 & H2 & H3); [|apply bytes_ok_skipn; exact Hd].
  assert (Ed : d = (Len bs :: Bits bs) ++ List.concat hs ++ b') by (rewrite Ef, <- H3; symmetry; apply firstn_skipn).
  assert (El : zlen d - zlen b' = zlen ((Len bs :: Bits bs) ++ List.concat hs)) by (rewrite Ed, app_assoc, zlen_app; lia).
  pose proof (zlen_nonneg b'). pose proof (zlen_nonneg ((Len bs :: Bits bs) ++ List.concat hs)).
  split; [lia|]. split; [exact Hu|]. split; [exact Hb|]. split; [exact Hz|]. split; [unfold u8 in Hu; unfold zlen; lia|]. split; [exact H2|].
  rewrite El. unfold zlen. rewrite Nat2Z.id. rewrite Ed. rewrite app_assoc. symmetry. apply firstn_app_len. reflexivity.
Qed.
Lemma path_unm_total a d : (exists p n, MerklePath_Unmarshal a d = Ok (p, n)) \/ MerklePath_Unmarshal a d = Err EUnexpectedEOF.
Proof.
  unfold MerklePath_Unmarshal. destruct (bitset_unm_total (Branches a) d) as [(bs & n & ->)| ->]; cbn [bind]; [|auto].
  destruct (read_nodes_total (Z.to_nat (Len bs)) (skipn (Z.to_nat n) d)) as [((hs & b') & ->)| ->]; cbn [bind]; eauto.
Qed.
Lemma path_safe : codec_safe path_codec.
Proof.
  apply typed_codec_safe. intros a d Hd. destruct (path_unm_total a d) as [(p & n & E)|E]; rewrite E; [|exact I].
  apply path_unm_ok in E; [|exact Hd]. lia.
Qed.
Lemma path_canonical : codec_canonical path_codec.
Proof.
  apply typed_codec_canonical; [exact path_of_v|]. intros a d p n Hd E. apply path_unm_ok in E as (Hn & _ & _ & _ & _ & _ & Ef); [|exact Hd].
  split; [exact Hn|]. intros b. unfold MerklePath_Marshal, BitSet_Marshal. cbn [bind]. rewrite <- Ef, <- !app_assoc. reflexivity.
Qed.
Lemma typed_hashes hs : Forall (array 32) hs -> Forall (typed (bytesN 32)) (map vbytes hs).
Proof.
  induction 1 as [|h hs (Hl & Hb) _ IH]; constructor; [|exact IH].
  cbn. split; [rewrite map_length; exact Hl|apply typed_vbytes; exact Hb].
Qed.
Lemma path_typed : typed_codecs ty_path.
Proof.
  apply typed_codec_typed. intros a d p n Hd E. apply path_unm_ok in E as (_ & H1 & H2 & _ & _ & H3 & _); [|exact Hd].
  cbn [typed v_path field ty_bitset]. split; [apply bitset_typed_val; assumption|]. split; [|exact I]. apply typed_hashes. exact H3.
Qed.
Lemma path_encodes p : path_ok p -> codec_encodes path_codec (v_path p) ((Len (Branches p) :: Bits (Branches p)) ++ List.concat (Hashes p)).
Proof.
  intros (Hb & Hl & Hh). apply typed_codec_encodes; [exact path_of_v| |].
  - intros b. unfold MerklePath_Marshal, BitSet_Marshal. cbn [bind]. rewrite <- !app_assoc. reflexivity.
  - intros dst rest. unfold MerklePath_Unmarshal. rewrite <- app_assoc, bitset_unm_enc by exact Hb. cbn [bind].
    rewrite skipn_app_len by (unfold zlen; cbn [List.length]; lia).
    rewrite <- Hl. unfold zlen at 1. rewrite Nat2Z.id, read_nodes_enc by exact Hh. cbn [bind]. rewrite app_assoc, zlen_app.
    destruct p as [x y]. cbn [Branches Hashes]. do 2 f_equal. lia.
Qed.

(** ** Accounts *)
Ltac declare := repeat match goal with
  | |- _ /\ _ => split
  | |- exists ts, _ = Ok ts => eexists; reflexivity
  | |- elem_ok _ => let H := fresh in intros H; first [reflexivity | discriminate H]
  | |- True => exact I
  | |- is_custom _ = _ => reflexivity
  | _ => first [assumption | eassumption | solve [eauto] ]
  end.
Ltac typed_fields :=
  repeat match goal with
  | H : typed (TNum _) ?v |- _ => let E := fresh in let R := fresh in destruct (typed_num _ _ H) as (E & R); clear H
  | H : typed (bytesN _) ?v |- _ => let E := fresh in let R := fresh in destruct (typed_bytesN _ _ H) as (E & R); clear H
  | H : typed (TSlice (TNum U8)) ?v |- _ => let E := fresh in let R := fresh in destruct (typed_blob _ H) as (E & R); clear H
  end.
Lemma typed_struct fs v : typed (TStruct fs) v -> exists vs, v = VStruct vs /\ all_typed fs vs.
Proof. destruct v as [| | | | |vs| |]; try contradiction. intros Hv. exists vs. split; [reflexivity|exact Hv]. Qed.
Lemma typed_ty_hash v : typed ty_hash v -> v_hash (hash_of v) = v /\ hash_ok (hash_of v).
Proof.
  intros Hv. change (typed (TStruct [field (TNum U8); field (bytesN 32)]) v) in Hv. apply typed_struct in Hv as (vs & -> & Hv).
  destruct vs as [|a [|b [|]]]; cbn [all_typed field] in Hv; try tauto. destruct Hv as (Ha & Hb & _). typed_fields.
  unfold v_hash, hash_of. cbn [fld nth Algorithm Bytes]. split; [congruence|]. split; assumption.
Qed.
Lemma account_of_v a : account_of (AccountType a) (v_account a) = a.
Proof.
  destruct a as [v|[c1 c2 c3 c4 c5 c6]|[c1 c2 c3 c4 c5 c6 c7]]; cbn [AccountType v_account]; unfold account_of; cbn [Z.eqb Pos.eqb]; cbn [fld nth num_of]; try reflexivity;
    cbn [v_value v_owner v_start v_step_blocks v_step_amount v_total h_value h_sender h_recipient h_hash h_count h_timeout h_total];
    rewrite !bytes_of_vbytes, ?hash_of_v; reflexivity.
Qed.
Lemma typed_account typ v : typ = 0 \/ typ = 1 \/ typ = 2 -> typed (ty_account typ) v ->
  v_account (account_of typ v) = v /\ account_ok (account_of typ v) /\ AccountType (account_of typ v) = typ.
Proof.
  intros [->|[->| ->]]; [change (ty_account 0) with ty_basic|change (ty_account 1) with ty_vesting|change (ty_account 2) with ty_htlc].
  - intros Hv. apply typed_struct in Hv as (vs & -> & Hv). destruct vs as [|a [|]]; cbn [all_typed field] in Hv; try tauto.
    destruct Hv as (Ha & _). typed_fields.
    unfold account_of. cbn [Z.eqb v_account fld nth account_ok AccountType]. split; [congruence|]. split; [assumption|reflexivity].
  - intros Hv. apply typed_struct in Hv as (vs & -> & Hv).
    destruct vs as [|a [|b [|c [|d [|e [|f [|]]]]]]]; cbn [all_typed field] in Hv; try tauto.
    destruct Hv as (Ha & Hb & Hc & Hd & He & Hf & _). typed_fields.
    unfold account_of. cbn [Z.eqb Pos.eqb]. cbn [v_account fld nth account_ok AccountType v_value v_owner v_start v_step_blocks v_step_amount v_total].
    split; [congruence|]. split; [|reflexivity]. do 5 (split; [assumption|]). assumption.
  - intros Hv. apply typed_struct in Hv as (vs & -> & Hv).
    destruct vs as [|a [|b [|c [|d [|e [|f [|g [|]]]]]]]]; cbn [all_typed field] in Hv; try tauto.
    destruct Hv as (Ha & Hb & Hc & Hd & He & Hf & Hg & _). apply typed_ty_hash in Hd as (Ed & Hd). typed_fields.
    unfold account_of. cbn [Z.eqb Pos.eqb]. cbn [v_account fld nth account_ok AccountType h_value h_sender h_recipient h_hash h_count h_timeout h_total].
    split; [congruence|]. split; [|reflexivity]. do 3 (split; [assumption|]). split; [exact Hd|]. do 2 (split; [assumption|]). assumption.
Qed.

(** Well-formedness of a concrete type. *)
Lemma declared_weaken (P Q : codec -> Prop) t : (forall c, P c -> Q c) -> well_declared P t -> well_declared Q t.
Proof.
  intros HPQ. induction t as [|k| |t IH|m t IH|t IH|fs IH| |c t IH] using ty_ind'; cbn [well_declared]; try tauto; try (intros (? & ?); auto; fail).
  - intros Hw. change (all_declared P fs) in Hw. change (all_declared Q fs).
    induction IH as [|(tag & t) fs Ht _ IHfs]; [exact I|]. destruct Hw as (H1 & H2 & H3). split; [exact H1|]. split; [apply Ht; exact H2|apply IHfs; exact H3].
  - apply HPQ.
Qed.
Lemma declared_account (P : codec -> Prop) typ : P hash_codec -> well_declared P (ty_account typ).
Proof. intros Hh. unfold ty_account. destruct (typ =? 0); [|destruct (typ =? 1)]; cbn; declare. Qed.
Lemma account_typed_codecs typ : typed_codecs (ty_account typ).
Proof. unfold ty_account. destruct (typ =? 0); [cbn; tauto|]. destruct (typ =? 1); [cbn; tauto|]. cbn [ty_htlc typed_codecs field]. repeat split. exact hash_typed. Qed.

Ltac encodable_fields := cbn [encodable field tagged]; repeat match goal with
  | |- _ /\ _ => split
  | |- exists ts, field_tags _ = Ok ts /\ _ => eexists; split; [reflexivity|]
  | |- True => exact I
  end.
Fixpoint all_enc (fs : list (option bytes * ty)) (vs : list val) : Prop :=
  match fs, vs with
  | [], [] => True
  | (tag, t) :: fs, v :: vs => (exists ts, field_tags tag = Ok ts /\ encodable t ts v) /\ all_enc fs vs
  | _, _ => False
  end.
Lemma encodable_struct fs ts vs : all_enc fs vs -> encodable (TStruct fs) ts (VStruct vs).
Proof. intros Hv. exact Hv. Qed.
Lemma all_enc_cons t fs v vs : encodable t no_tags v -> all_enc fs vs -> all_enc (field t :: fs) (v :: vs).
Proof. intros H1 H2. split; [exists no_tags; split; [reflexivity|exact H1]|exact H2]. Qed.
Lemma all_enc_tag s ts t fs v vs : field_tags (Some (str s)) = Ok ts -> encodable t ts v -> all_enc fs vs -> all_enc (tagged s t :: fs) (v :: vs).
Proof. intros H0 H1 H2. split; [exists ts; split; [exact H0|exact H1]|exact H2]. Qed.
Ltac enc_step := first [apply all_enc_cons | eapply all_enc_tag; [reflexivity| |]].
Lemma encodable_hash h : hash_ok h -> encodable ty_hash no_tags (v_hash h).
Proof. intros Hh. eexists. split; [apply hash_encodes; exact Hh|discriminate]. Qed.

Lemma account_encodable a : account_ok a -> encodable (ty_account (AccountType a)) no_tags (v_account a).
Proof.
  destruct a as [v|c|h]; cbn [AccountType v_account account_ok].
  - intros Hv. change (ty_account 0) with ty_basic. apply encodable_struct. apply all_enc_cons; [exact Hv|exact I].
  - intros (H1 & H2 & H3 & H4 & H5 & H6). change (ty_account 1) with ty_vesting. apply encodable_struct.
    apply all_enc_cons; [exact H1|]. apply all_enc_cons; [apply encodable_array; exact H2|].
    do 3 (apply all_enc_cons; [assumption|]). apply all_enc_cons; [assumption|exact I].
  - intros (H1 & H2 & H3 & H4 & H5 & H6 & H7). change (ty_account 2) with ty_htlc. apply encodable_struct.
    apply all_enc_cons; [exact H1|]. apply all_enc_cons; [apply encodable_array; exact H2|]. apply all_enc_cons; [apply encodable_array; exact H3|].
    apply all_enc_cons; [apply encodable_hash; exact H4|].
    do 2 (apply all_enc_cons; [assumption|]). apply all_enc_cons; [assumption|exact I].
Qed.

Lemma unmarshal_typed t d v n : well_declared (fun _ => True) t -> typed_codecs t -> bytes_ok d ->
  forall dst, Unmarshal d (APtr t dst) = (Ok v, n) -> exists w, v = Some w /\ typed t w.
Proof.
  intros Hw Hc Hd dst E. unfold Unmarshal in E. destruct (value t no_tags dst (DState d [])) as (r & s) eqn:Ev.
  destruct r as [w|e| |]; try discriminate. cbn [bind] in E. injection E as <- _. exists w. split; [reflexivity|].
  exact (value_typed t Hw Hc no_tags dst (DState d []) w s Hd Ev).
Qed.

Lemma wrap_account_of_v a : wrap_account_of (v_wrap_account a) = a.
Proof. destruct a as [a|]; [|reflexivity]. unfold wrap_account_of, v_wrap_account. cbn [fld nth]. rewrite account_of_v. reflexivity. Qed.
Lemma is_account_type typ : ((typ =? 0) || (typ =? 1) || (typ =? 2)) = true -> typ = 0 \/ typ = 1 \/ typ = 2.
Proof. rewrite !orb_true_iff, !Z.eqb_eq. tauto. Qed.
Lemma wrap_account_total w d : bytes_ok d ->
  match WrapAccount_Unmarshal w d with
  | Ok (a, n) => exists x, a = Some x /\ account_ok x /\ 1 <= n <= zlen d /\
                  forall b, WrapAccount_Marshal a b = Ok (b ++ firstn (Z.to_nat n) d, None)
  | Err _ => True
  | _ => False
  end.
Proof.
  intros Hd. destruct d as [|typ d]; [exact I|]. apply Forall_inv_tail in Hd. unfold WrapAccount_Unmarshal.
  destruct ((typ =? 0) || (typ =? 1) || (typ =? 2)) eqn:Et; [|exact I]. apply is_account_type in Et.
  destruct (C28_unmarshal_total (ty_account typ) (zero (ty_account typ)) d (declared_account _ _ hash_safe) Hd) as (r & n & E & Hn & Hr & _ & _).
  rewrite E. destruct Hr as [(v & ->)|(e & ->)]; [|exact I]. cbn [bind].
  destruct (unmarshal_typed _ _ _ _ (declared_account _ _ I) (account_typed_codecs typ) Hd _ E) as (w' & Ew & Hw). injection Ew as <-.
  destruct (typed_account typ v Et Hw) as (Ev & Hok & Hty). exists (account_of typ v). split; [reflexivity|]. split; [exact Hok|].
  rewrite zlen_cons. split; [lia|]. intros b. unfold WrapAccount_Marshal. rewrite Hty, Ev.
  rewrite (C30_canonical _ _ _ _ _ (declared_account _ _ hash_canonical) Hd E). rewrite <- app_assoc.
  replace (Z.to_nat (1 + n)) with (S (Z.to_nat n)) by lia. reflexivity.
Qed.
Lemma wrap_account_safe : codec_safe wrap_account_codec.
Proof.
  apply typed_codec_safe. intros a d Hd. pose proof (wrap_account_total a d Hd) as Ht.
  destruct (WrapAccount_Unmarshal a d) as [(x & n)|e| |]; try exact Ht. destruct Ht as (y & _ & _ & Hn & _). lia.
Qed.
Lemma wrap_account_canonical : codec_canonical wrap_account_codec.
Proof.
  apply typed_codec_canonical; [exact wrap_account_of_v|]. intros w d a n Hd E. pose proof (wrap_account_total w d Hd) as Ht. rewrite E in Ht.
  destruct Ht as (x & -> & _ & Hn & Hm). split; [lia|exact Hm].
Qed.
Lemma wrap_account_encodes a : account_ok a ->
  exists e, e <> [] /\ codec_encodes wrap_account_codec (v_wrap_account (Some a)) e /\
    (forall b, WrapAccount_Marshal (Some a) b = Ok (b ++ e, None)) /\ (forall w rest, WrapAccount_Unmarshal w (e ++ rest) = Ok (Some a, zlen e)) /\
    exists e', e = AccountType a :: e' /\ enc (ty_account (AccountType a)) no_tags (v_account a) e'.
Proof.
  intros Hok. destruct (C27_decode_inverts_encode _ _ (account_encodable a Hok)) as (e & He & Hm & Hu & _).
  exists (AccountType a :: e). split; [discriminate|].
  assert (M : forall b, WrapAccount_Marshal (Some a) b = Ok (b ++ AccountType a :: e, None)).
  { intros b. unfold WrapAccount_Marshal. rewrite Hm, <- app_assoc. reflexivity. }
  assert (U : forall w rest, WrapAccount_Unmarshal w ((AccountType a :: e) ++ rest) = Ok (Some a, zlen (AccountType a :: e))).
  { intros w rest. cbn [app WrapAccount_Unmarshal]. rewrite Hu. cbn [bind]. rewrite account_of_v, zlen_cons. destruct a; reflexivity. }
  split; [apply typed_codec_encodes; [exact wrap_account_of_v|exact M|exact U]|]. split; [exact M|]. split; [exact U|].
  exists e. split; [reflexivity|exact He].
Qed.

(** ** Transactions *)
Lemma tx_of_v t : tx_of (TxType t) (v_tx t) = t.
Proof.
  destruct t as [b|x].
  - change (tx_of (TxType (TBasic b)) (v_tx (TBasic b))) with
      (TBasic (MkBasicTx (bytes_of (vbytes (b_pubkey b))) (bytes_of (vbytes (b_recipient b))) (b_value b) (b_fee b) (b_height b)
                 (b_network b) (bytes_of (vbytes (b_signature b))))).
    rewrite !bytes_of_vbytes. destruct b. reflexivity.
  - change (tx_of (TxType (TExtended x)) (v_tx (TExtended x))) with
      (TExtended (MkExtendedTx (bytes_of (vbytes (x_data x))) (bytes_of (vbytes (x_sender x))) (x_sender_type x)
         (bytes_of (vbytes (x_recipient x))) (x_recipient_type x) (x_value x) (x_fee x) (x_height x) (x_network x) (x_flags x)
         (bytes_of (vbytes (x_proof x))))).
    rewrite !bytes_of_vbytes. destruct x. reflexivity.
Qed.
Lemma declared_tx P typ : well_declared P (ty_tx typ).
Proof. unfold ty_tx. destruct (typ =? 0); cbn [well_declared ty_basic_tx ty_extended_tx ty_content_fields app tagged field bytesN]; declare. Qed.
Lemma tx_typed_codecs typ : typed_codecs (ty_tx typ).
Proof. unfold ty_tx. destruct (typ =? 0); cbn; tauto. Qed.
Lemma encodable_blob16 b : bytes_ok b -> zlen b < 2 ^ 16 -> encodable (TSlice (TNum U8)) (Tags (Some U16) false) (vbytes b).
Proof. intros Hb Hl. eapply encodable_blob; [reflexivity|reflexivity|exact Hb|cbn; lia|lia]. Qed.
Lemma tx_encodable t : tx_ok t -> encodable (ty_tx (TxType t)) no_tags (v_tx t).
Proof.
  destruct t as [b|x]; cbn [TxType v_tx tx_ok].
  - intros (H1 & H2 & H3 & H4 & H5 & H6 & H7). change (ty_tx 0) with ty_basic_tx. apply encodable_struct.
    do 2 (apply all_enc_cons; [apply encodable_array; assumption|]). do 4 (apply all_enc_cons; [assumption|]).
    apply all_enc_cons; [apply encodable_array; assumption|exact I].
  - intros (H1 & H2 & H3 & H4 & H5 & H6 & H7 & H8 & H9 & H10 & H11 & H12 & H13). change (ty_tx 1) with ty_extended_tx. apply encodable_struct.
    eapply all_enc_tag; [reflexivity|apply encodable_blob16; assumption|].
    apply all_enc_cons; [apply encodable_array; assumption|]. apply all_enc_cons; [assumption|].
    apply all_enc_cons; [apply encodable_array; assumption|]. do 6 (apply all_enc_cons; [assumption|]).
    eapply all_enc_tag; [reflexivity|apply encodable_blob16; assumption|exact I].
Qed.

(** ** What decoded values look like *)
(** Every value that the codec decodes satisfies [Q]. *)
Definition codec_decodes (Q : codec -> val -> Prop) (c : codec) : Prop :=
  forall dst d v n, bytes_ok d -> cd_unmarshal c dst d = Ok (v, n) -> Q c v.
(** Like [encodable], with [Q] for the parts that have a codec. *)
Fixpoint decoded (Q : codec -> val -> Prop) (t : ty) (ts : tags) (v : val) {struct t} : Prop :=
  match t, v with
  | TBool, VBool _ => True
  | TNum k, VNum z => in_range k z
  | TString, VString s => exists k, lenTag ts = Some k /\ len_fits k (List.length s)
  | TPtr t, VPtr None => is_custom t = false /\ optional ts = true
  | TPtr t, VPtr (Some v) => is_custom t = false /\ decoded Q t ts v
  | TArray n t, VList vs => elem_ok t /\ List.length vs = n /\ Forall (decoded Q t no_tags) vs
  | TSlice t, VList vs =>
      elem_ok t /\ occupies t no_tags = true /\
      (exists k, lenTag ts = Some k /\ len_fits k (List.length vs)) /\ Forall (decoded Q t no_tags) vs
  | TStruct fs, VStruct vs =>
      (fix all (fs : list (option (list Z) * ty)) (vs : list val) {struct fs} : Prop :=
         match fs, vs with
         | [], [] => True
         | (tag, t) :: fs, v :: vs => (exists ts, field_tags tag = Ok ts /\ decoded Q t ts v) /\ all fs vs
         | _, _ => False
         end) fs vs
  | TCustom c _, v => Q c v
  | _, _ => False
  end.
Definition all_dec (Q : codec -> val -> Prop) : list (option bytes * ty) -> list val -> Prop :=
  fix all fs vs :=
    match fs, vs with
    | [], [] => True
    | (tag, t) :: fs, v :: vs => (exists ts, field_tags tag = Ok ts /\ decoded Q t ts v) /\ all fs vs
    | _, _ => False
    end.
Lemma decoded_struct Q fs ts vs : all_dec Q fs vs -> decoded Q (TStruct fs) ts (VStruct vs).
Proof. intros H. exact H. Qed.
Lemma decoded_vbytes Q b : bytes_ok b -> Forall (decoded Q (TNum U8) no_tags) (map VNum b).
Proof. induction 1; constructor; [exact H|exact IHForall]. Qed.
Lemma decoded_array Q n ts b : array n b -> decoded Q (bytesN n) ts (vbytes b).
Proof.
  intros (Hl & Hb). cbn [decoded bytesN]. unfold vbytes. split; [intros _; reflexivity|].
  split; [rewrite map_length; exact Hl|apply (decoded_vbytes Q); exact Hb].
Qed.
Lemma decoded_encodable (Q : codec -> val -> Prop) t : (forall c v, Q c v -> exists e, codec_encodes c v e /\ e <> []) -> forall ts v, decoded Q t ts v -> encodable t ts v.
Proof.
  intros HQ. induction t as [|k| |t IH|m t IH|t IH|fs IH| |c t IH] using ty_ind'; intros ts v Hv; try exact Hv.
  - destruct v as [| | |[v|]| | | |]; try contradiction; [|exact Hv]. destruct Hv as (H1 & H2). split; [exact H1|exact (IH _ _ H2)].
  - destruct v; try contradiction. destruct Hv as (H1 & H2 & H3). split; [exact H1|]. split; [exact H2|]. eapply Forall_impl; [|exact H3]. intros. apply IH. assumption.
  - destruct v; try contradiction. destruct Hv as (H1 & H2 & H3 & H4). do 3 (split; [assumption|]). eapply Forall_impl; [|exact H4]. intros. apply IH. assumption.
  - destruct v as [| | | | |vs| |]; try contradiction. change (all_dec Q fs vs) in Hv. change (all_enc fs vs).
    revert vs Hv. induction IH as [|(tag & t) fs Ht Hfs IHfs]; intros [|v vs] Hv; try contradiction; [exact I|].
    destruct Hv as ((ts0 & E & Hd) & Hv). split; [exists ts0; split; [exact E|exact (Ht _ _ Hd)]|exact (IHfs _ Hv)].
  - exact (HQ _ _ Hv).
Qed.

Definition codec_full (c : codec) : Prop :=
  forall dst d v n, bytes_ok d -> cd_unmarshal c dst d = Ok (v, n) -> exists e, codec_encodes c v e /\ e <> [].
(** No slices of elements that can be empty. *)
Fixpoint slices_occupy (t : ty) : Prop :=
  match t with
  | TPtr t | TArray _ t => slices_occupy t
  | TSlice t => occupies t no_tags = true /\ slices_occupy t
  | TStruct fs => (fix all (fs : list (option bytes * ty)) : Prop :=
                     match fs with [] => True | (_, t) :: fs => slices_occupy t /\ all fs end) fs
  | _ => True
  end.
Fixpoint all_slices_occupy (fs : list (option bytes * ty)) : Prop :=
  match fs with [] => True | (_, t) :: fs => slices_occupy t /\ all_slices_occupy fs end.

Lemma dec_n_decoded (Q : codec -> val -> Prop) t f n : (forall d s v s', bytes_ok (data s) -> f d s = (Ok v, s') -> decoded Q t no_tags v) -> (forall d, advancing (f d)) ->
  forall dsts s vs s', bytes_ok (data s) -> dec_n f n dsts s = (Ok vs, s') -> List.length vs = n /\ Forall (decoded Q t no_tags) vs.
Proof.
  intros Hf Ha. induction n as [|n IH]; intros dsts s vs s' Hb E; cbn [dec_n] in E.
  - injection E as <- _. split; [reflexivity|constructor].
  - apply mbind_ok in E as (v & s1 & E1 & E). apply mbind_ok in E as (vs1 & s2 & E2 & E). injection E as <- _.
    destruct (IH _ _ _ _ (adv_bytes _ _ (Ha _ _ _ _ E1) Hb) E2) as (Hl & Ht). split; [cbn; congruence|].
    constructor; [exact (Hf _ _ _ _ Hb E1)|exact Ht].
Qed.
Lemma read_len_fits ts s u s' : tags_unsigned ts -> bytes_ok (data s) -> read_len ts s = (Ok u, s') ->
  0 <= u /\ exists k, lenTag ts = Some k /\ len_fits k (Z.to_nat u).
Proof.
  intros Hu Hb E. destruct (read_len_ok _ _ _ _ Hb E) as (k & b & Hk & _ & _ & _ & H0 & Hs). specialize (Hu k Hk). destruct (Hs Hu) as (_ & Hm).
  split; [exact H0|]. exists k. split; [exact Hk|]. split; [exact Hu|]. rewrite Z2Nat.id by exact H0. split; [exact Hm|].
  unfold read_len in E. rewrite Hk in E. apply mbind_ok in E as (z & s1 & _ & E). rewrite Hu in E. cbn [andb] in E.
  destruct (Z.ltb_spec maxInt z); [discriminate|]. injection E as -> _. unfold maxInt in *. lia.
Qed.
Lemma value_decoded (Q : codec -> val -> Prop) t : well_declared (codec_decodes Q) t -> slices_occupy t -> forall ts dst s v s', tags_unsigned ts -> bytes_ok (data s) ->
  value t ts dst s = (Ok v, s') -> decoded Q t ts v.
Proof.
  induction t as [|k| |t IH|m t IH|t IH|fs IH| |c t IH] using ty_ind'; intros Hw Hc ts dst s v s' Hu Hb E.
  - cbn [value] in E. apply mbind_ok in E as (b & s1 & E1 & E). destruct b as [|[|[]|] []]; try discriminate; injection E as <- _; exact I.
  - cbn [value] in E. apply mbind_ok in E as (z & s1 & E1 & E). injection E as <- _. cbn [decoded]. apply to_kind_range.
  - cbn [value] in E. apply mbind_ok in E as (u & s1 & E1 & E). apply mbind_ok in E as (b & s2 & E2 & E). injection E as <- _.
    pose proof (adv_bytes _ _ (adv_read_len ts _ _ _ E1) Hb) as Hb1.
    apply read_len_fits in E1 as (H0 & k & Hk & Hf); [|assumption..]. apply pop_bytes in E2 as (_ & Hl & _); [|exact Hb1].
    cbn [decoded]. exists k. rewrite (Hl H0). auto.
  - destruct Hw as (Hi & Hw). rewrite value_ptr in E by exact Hi. cbv zeta in E. cbn [slices_occupy] in Hc.
    assert (G : forall s s', bytes_ok (data s) -> (do v <- value t ts (zero t); ret (VPtr (Some v))) s = (Ok v, s') -> decoded Q (TPtr t) ts v).
    { clear E Hb s s'. intros s s' Hb E. apply mbind_ok in E as (v1 & s1 & E1 & E). injection E as <- _. split; [exact Hi|exact (IH Hw Hc ts _ _ _ _ Hu Hb E1)]. }
    destruct (optional ts) eqn:Ho; [|exact (G _ _ Hb E)]. apply mbind_ok in E as (b & s1 & E1 & E).
    apply pop_bytes in E1 as (_ & _ & Hb1); [|exact Hb].
    destruct b as [|[|[]|] []]; try discriminate; [injection E as <- _; split; assumption|exact (G _ _ Hb1 E)].
  - destruct Hw as (Hok & Hw). cbn [value] in E. destruct (is_u8 t) eqn:Eu.
    + pose proof (u8_num t Hok Eu) as ->. cbn [is_custom] in E. apply mbind_ok in E as (b & s1 & E1 & E). injection E as <- _.
      apply pop_bytes in E1 as (Hb1 & Hl & _); [|exact Hb]. apply (decoded_array Q m). split; [rewrite Hl by lia; lia|exact Hb1].
    + apply mbind_ok in E as (vs & s1 & E1 & E). injection E as <- _. cbn [decoded].
      apply (dec_n_decoded Q t) in E1; [split; [exact Hok|exact E1]| |intros; apply adv_value|exact Hb].
      intros d s0 v0 s0' Hb0 E0. refine (IH Hw Hc _ _ _ _ _ _ Hb0 E0). intros ? ?; discriminate.
  - destruct Hw as (Hok & Hw). destruct Hc as (Hoc & Hc). cbn [value] in E. apply mbind_ok in E as (u & s1 & E1 & E).
    pose proof (adv_bytes _ _ (adv_read_len ts _ _ _ E1) Hb) as Hb1.
    apply read_len_fits in E1 as (H0 & k & Hk & Hf); [|assumption..].
    destruct (is_u8 t) eqn:Eu.
    + pose proof (u8_num t Hok Eu) as ->. apply mbind_ok in E as (b & s2 & E2 & E). injection E as <- _.
      apply pop_bytes in E2 as (Hb2 & Hl & _); [|exact Hb1]. cbn [decoded]. unfold vbytes.
      split; [exact Hok|]. split; [exact Hoc|]. split; [exists k; rewrite map_length, (Hl H0); auto|apply (decoded_vbytes Q); exact Hb2].
    + destruct (zlen (data s1) <? u); [discriminate|]. apply mbind_ok in E as (? & s2 & E2 & E). apply mbind_ok in E as (vs & s3 & E3 & E).
      injection E as <- _. cbn [decoded]. injection E2 as _ <-.
      apply (dec_n_decoded Q t) in E3; [destruct E3 as (Hl & Hv)| |intros; apply adv_value|exact Hb1].
      * split; [exact Hok|]. split; [exact Hoc|]. split; [exists k; rewrite Hl; auto|exact Hv].
      * intros d s0 v0 s0' Hb0 E0. refine (IH Hw Hc _ _ _ _ _ _ Hb0 E0). intros ? ?; discriminate.
  - rewrite value_struct in E. apply mbind_ok in E as (vs & s1 & E & E'). injection E' as <- _.
    apply decoded_struct. change (all_declared (codec_decodes Q) fs) in Hw. change (all_slices_occupy fs) in Hc.
    revert vs s Hb E. generalize (elems_of dst). induction IH as [|(tag & t) fs Ht Hfs IHfs]; intros dsts vs s Hb E; cbn [value_fields] in E.
    + injection E as <- _. exact I.
    + apply mbind_ok in E as (ts0 & s2 & E2 & E). injection E2 as E2 <-. apply mbind_ok in E as (v & s3 & E3 & E).
      apply mbind_ok in E as (vs' & s4 & E4 & E). injection E as <- E5. destruct Hw as (_ & Hw1 & Hw2). destruct Hc as (Hc1 & Hc2).
      split; [exists ts0; split; [exact E2|exact (Ht Hw1 Hc1 _ _ _ _ _ (field_tags_unsigned _ _ E2) Hb E3)]|].
      apply (IHfs Hw2 Hc2 (List.tl dsts) _ s3); [|congruence].
      exact (adv_bytes _ _ (adv_value t ts0 _ _ _ _ E3) Hb).
  - discriminate.
  - cbn [value] in E. unfold call_unmarshal in E. destruct (cd_unmarshal c dst (data s)) as [(v1 & n)|e| |] eqn:Ec; try discriminate.
    destruct (n <? 0); [discriminate|]. destruct (zlen (data s) <? n); [discriminate|]. injection E as <- _. exact (Hw _ _ _ _ Hb Ec).
Qed.
Lemma value_encodable t : well_declared codec_full t -> slices_occupy t -> forall ts dst s v s', tags_unsigned ts -> bytes_ok (data s) ->
  value t ts dst s = (Ok v, s') -> encodable t ts v.
Proof.
  intros Hw Hc ts dst s v s' Hu Hb E. refine (decoded_encodable (fun c v => exists e, codec_encodes c v e /\ e <> []) t _ ts v _); [auto|].
  exact (value_decoded _ t Hw Hc ts dst s v s' Hu Hb E).
Qed.
Lemma unmarshal_encodable t d v n : well_declared codec_full t -> slices_occupy t -> bytes_ok d ->
  forall dst, Unmarshal d (APtr t dst) = (Ok v, n) -> exists w, v = Some w /\ encodable t no_tags w.
Proof.
  intros Hw Hc Hd dst E. unfold Unmarshal in E. destruct (value t no_tags dst (DState d [])) as (r & s) eqn:Ev.
  destruct r as [w|e| |]; try discriminate. cbn [bind] in E. injection E as <- _. exists w. split; [reflexivity|].
  refine (value_encodable t Hw Hc no_tags dst (DState d []) w s _ Hd Ev). intros ? ?; discriminate.
Qed.

(** ** Transactions, continued *)
Lemma typed_tx typ v : typ = 0 \/ typ = 1 -> typed (ty_tx typ) v -> encodable (ty_tx typ) no_tags v ->
  v_tx (tx_of typ v) = v /\ tx_ok (tx_of typ v) /\ TxType (tx_of typ v) = typ.
Proof.
  intros [->| ->] Hv He.
  - change (ty_tx 0) with ty_basic_tx in *. clear He. apply typed_struct in Hv as (vs & -> & Hv).
    destruct vs as [|a [|b [|c [|d [|e [|f [|g [|]]]]]]]]; cbn [all_typed field] in Hv; try tauto.
    destruct Hv as (Ha & Hb & Hc & Hd & He & Hf & Hg & _). typed_fields.
    change (tx_of 0 (VStruct [a; b; c; d; e; f; g])) with
      (TBasic (MkBasicTx (bytes_of a) (bytes_of b) (num_of c) (num_of d) (num_of e) (num_of f) (bytes_of g))).
    cbn [v_tx v_basic_tx tx_ok TxType b_pubkey b_recipient b_value b_fee b_height b_network b_signature].
    split; [unfold v_basic_tx; cbn [b_pubkey b_recipient b_value b_fee b_height b_network b_signature]; congruence|].
    split; [|reflexivity]. do 6 (split; [assumption|]). assumption.
  - change (ty_tx 1) with ty_extended_tx in *. apply typed_struct in Hv as (vs & -> & Hv). cbn [ty_content_fields app] in Hv.
    change (all_enc (ty_content_fields ++ [tagged "len_tag=uint16" (TSlice (TNum U8))]) vs) in He. cbn [ty_content_fields app] in He.
    destruct vs as [|a [|b [|c [|d [|e [|f [|g [|h [|i [|j [|k [|]]]]]]]]]]]]; cbn [all_typed field tagged] in Hv; try tauto.
    cbn [all_enc field tagged] in He.
    destruct He as ((ts1 & T1 & E1) & _ & _ & _ & _ & _ & _ & _ & _ & _ & (ts2 & T2 & E2) & _).
    destruct Hv as (Ha & Hb & Hc & Hd & He & Hf & Hg & Hh & Hi & Hj & Hk & _). typed_fields.
    assert (L : forall ts x, field_tags (Some (str "len_tag=uint16")) = Ok ts -> encodable (TSlice (TNum U8)) ts x -> zlen (bytes_of x) < 2 ^ 16).
    { intros ts x Et. assert (ts = Tags (Some U16) false) as -> by (cbv in Et; congruence). destruct x; try contradiction.
      cbn [encodable]. intros (_ & _ & (k0 & Hk0 & Hf0) & _). injection Hk0 as <-. destruct Hf0 as (_ & Hf0 & _).
      cbn [bytes_of]. unfold zlen. rewrite map_length. cbn in Hf0. lia. }
    pose proof (L _ _ T1 E1) as L1. pose proof (L _ _ T2 E2) as L2. clear L E1 E2 T1 T2.
    change (tx_of 1 (VStruct [a; b; c; d; e; f; g; h; i; j; k])) with
      (TExtended (MkExtendedTx (bytes_of a) (bytes_of b) (num_of c) (bytes_of d) (num_of e) (num_of f) (num_of g) (num_of h) (num_of i) (num_of j) (bytes_of k))).
    cbn [v_tx tx_ok TxType x_data x_sender x_sender_type x_recipient x_recipient_type x_value x_fee x_height x_network x_flags x_proof].
    split; [unfold v_extended_tx; cbn [x_data x_sender x_sender_type x_recipient x_recipient_type x_value x_fee x_height x_network x_flags x_proof]; congruence|].
    split; [|reflexivity]. do 12 (split; [assumption|]). assumption.
Qed.
Lemma tx_slices_occupy typ : slices_occupy (ty_tx typ).
Proof. unfold ty_tx. destruct (typ =? 0); cbn; tauto. Qed.
Lemma wrap_tx_of_v t : wrap_tx_of (v_wrap_tx t) = t.
Proof. destruct t as [t|]; [|reflexivity]. unfold wrap_tx_of, v_wrap_tx. cbn [fld nth]. rewrite tx_of_v. reflexivity. Qed.
Lemma wrap_tx_total w d : bytes_ok d ->
  match WrapTx_Unmarshal w d with
  | Ok (a, n) => exists x, a = Some x /\ tx_ok x /\ 1 <= n <= zlen d /\
                  forall b, WrapTx_Marshal a b = Ok (b ++ firstn (Z.to_nat n) d, None)
  | Err _ => True
  | _ => False
  end.
Proof.
  intros Hd. destruct d as [|typ d]; [exact I|]. apply Forall_inv_tail in Hd. unfold WrapTx_Unmarshal.
  destruct ((typ =? 0) || (typ =? 1)) eqn:Et; [|exact I].
  assert (Et' : typ = 0 \/ typ = 1) by (rewrite orb_true_iff, !Z.eqb_eq in Et; exact Et).
  destruct (C28_unmarshal_total (ty_tx typ) (zero (ty_tx typ)) d (declared_tx _ _) Hd) as (r & n & E & Hn & Hr & _ & _).
  rewrite E. destruct Hr as [(v & ->)|(e & ->)]; [|exact I]. cbn [bind].
  destruct (unmarshal_typed _ _ _ _ (declared_tx _ _) (tx_typed_codecs typ) Hd _ E) as (w' & Ew & Hw). injection Ew as <-.
  destruct (unmarshal_encodable _ _ _ _ (declared_tx _ _) (tx_slices_occupy typ) Hd _ E) as (w' & Ew & He). injection Ew as <-.
  destruct (typed_tx typ v Et' Hw He) as (Ev & Hok & Hty). exists (tx_of typ v). split; [reflexivity|]. split; [exact Hok|].
  rewrite zlen_cons. split; [lia|]. intros b. unfold WrapTx_Marshal. rewrite Hty, Ev.
  rewrite (C30_canonical _ _ _ _ _ (declared_tx _ _) Hd E). rewrite <- app_assoc.
  replace (Z.to_nat (1 + n)) with (S (Z.to_nat n)) by lia. reflexivity.
Qed.
Lemma wrap_tx_safe : codec_safe wrap_tx_codec.
Proof.
  apply typed_codec_safe. intros a d Hd. pose proof (wrap_tx_total a d Hd) as Ht.
  destruct (WrapTx_Unmarshal a d) as [(x & n)|e| |]; try exact Ht. destruct Ht as (y & _ & _ & Hn & _). lia.
Qed.
Lemma wrap_tx_canonical : codec_canonical wrap_tx_codec.
Proof.
  apply typed_codec_canonical; [exact wrap_tx_of_v|]. intros w d a n Hd E. pose proof (wrap_tx_total w d Hd) as Ht. rewrite E in Ht.
  destruct Ht as (x & -> & _ & Hn & Hm). split; [lia|exact Hm].
Qed.
Lemma wrap_tx_encodes a : tx_ok a ->
  exists e, e <> [] /\ codec_encodes wrap_tx_codec (v_wrap_tx (Some a)) e /\
    (forall b, WrapTx_Marshal (Some a) b = Ok (b ++ e, None)) /\ (forall w rest, WrapTx_Unmarshal w (e ++ rest) = Ok (Some a, zlen e)) /\
    exists e', e = TxType a :: e' /\ enc (ty_tx (TxType a)) no_tags (v_tx a) e'.
Proof.
  intros Hok. destruct (C27_decode_inverts_encode _ _ (tx_encodable a Hok)) as (e & He & Hm & Hu & _).
  exists (TxType a :: e). split; [discriminate|].
  assert (M : forall b, WrapTx_Marshal (Some a) b = Ok (b ++ TxType a :: e, None)).
  { intros b. unfold WrapTx_Marshal. rewrite Hm, <- app_assoc. reflexivity. }
  assert (U : forall w rest, WrapTx_Unmarshal w ((TxType a :: e) ++ rest) = Ok (Some a, zlen (TxType a :: e))).
  { intros w rest. cbn [app WrapTx_Unmarshal]. rewrite Hu. cbn [bind]. rewrite tx_of_v, zlen_cons. destruct a; reflexivity. }
  split; [apply typed_codec_encodes; [exact wrap_tx_of_v|exact M|exact U]|]. split; [exact M|]. split; [exact U|].
  exists e. split; [reflexivity|exact He].
Qed.
