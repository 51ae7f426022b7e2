(** Helpers for concrete indexes (examples and counterexamples): the entries of
    [mkb l] are those listed, and a slice determines the dir item it carries. *)
From Verif Require Import Go GoProofs Layout LayoutProofs SpecLayout StructProofs PropsLayout KeyFmt KeyProofs Bolt Store StoreProofs SpecStore RangeProofs PropsStore PropsRange.
From Coq Require Import ZifyBool ZifyNat ZifyN Sorted.
Ltac Zify.zify_post_hook ::= Z.div_mod_to_equations.

Definition wf_items (l : list (Z * Key * Z * list byte)) : Prop :=
  Forall (fun '(o, k, g, v) => wf_tuple o k g) l.
Definition tuple_b (o : Z) (k : Key) (g : Z) : bool :=
  let u64b x := (0 <=? x) && (x <? 2^64) in
  u64b o && u64b (ObjectID k) && ((0 <=? KType k) && (KType k <? 256)) && u64b (KOffset k) && u64b g.
Lemma tuple_ok o k g : tuple_b o k g = true -> wf_tuple o k g.
Proof. unfold tuple_b, wf_tuple, wf_Key, is_u64, is_u8. cbv zeta. rewrite !andb_true_iff. intros H. decompose [and] H. repeat split; lia. Qed.
Lemma wf_items_b l : forallb (fun '(o, k, g, v) => tuple_b o k g) l = true -> wf_items l.
Proof.
  intros H. unfold wf_items. rewrite Forall_forall. intros [[[o k] g] v] Hin. rewrite forallb_forall in H. exact (tuple_ok _ _ _ (H _ Hin)).
Qed.
Lemma In_mkb l e : In e (mkb l) -> fst e = metadataKey \/ exists o k g v, In (o, k, g, v) l /\ e = (newIndexKey o k g, v).
Proof.
  unfold mkb. set (b0 := [(metadataKey, _)]).
  assert (H0 : forall e, In e b0 -> fst e = metadataKey) by (intros e' [<-|[]]; reflexivity).
  assert (W0 : wf_bucket b0) by (split; [cbn; auto|repeat constructor]).
  assert (G : forall l b, wf_bucket b -> In e (fold_left (fun b '(o, k, g, v) => put b (newIndexKey o k g) v) l b) ->
     In e b \/ exists o k g v, In (o, k, g, v) l /\ e = (newIndexKey o k g, v)).
  { clear. induction l as [|[[[o k] g] v] l IH]; intros b W H; cbn [fold_left] in H; [left; exact H|].
    destruct (put_spec b (newIndexKey o k g) v W (newIndexKey_length o k g)) as [W' HP].
    destruct (IH _ W' H) as [H1|(o' & k' & g' & v' & Hin & E)].
    - apply HP in H1 as [->|[H1 _]]; [right; exists o, k, g, v; split; [left; reflexivity|reflexivity]|left; exact H1].
    - right. exists o', k', g', v'. split; [right; exact Hin|exact E]. }
  intros H. destruct (G l b0 W0 H) as [H1|H1]; [left; auto|right; exact H1].
Qed.
Lemma stored_mkb l o k g v : wf_items l -> wf_tuple o k g -> newIndexKey o k g <> metadataKey -> stored (mkb l) o k g v -> In (o, k, g, v) l.
Proof.
  intros WI W NM H. apply In_mkb in H as [H|(o' & k' & g' & v' & Hin & E)]; [contradiction|].
  pose proof (f_equal fst E) as E1. pose proof (f_equal snd E) as E2. cbn [fst snd] in E1, E2.
  unfold wf_items in WI. rewrite Forall_forall in WI. pose proof (WI _ Hin) as W'. cbv beta iota in W'.
  apply newIndexKey_inj in E1 as (-> & -> & ->); [|exact W|exact W']. subst v'. exact Hin.
Qed.
Lemma stored_mkb_owner l o k g v : wf_items l -> is_u64 o -> o < 2^64 - 1 -> wf_Key k -> is_u64 g -> stored (mkb l) o k g v -> In (o, k, g, v) l.
Proof.
  intros WI Ho Hm Hk Hg. apply stored_mkb; [exact WI|unfold wf_tuple; auto|].
  intros E. pose proof (f_equal ik_Owner E) as E1. destruct (ik_built o k g) as (A & _); [unfold wf_tuple; auto|]. rewrite A in E1.
  vm_compute ik_Owner in E1. lia.
Qed.

Lemma app_eq_len {A} (a a' r r' : list A) : length a = length a' -> a ++ r = a' ++ r' -> a = a' /\ r = r'.
Proof.
  revert a'. induction a as [|x a IH]; intros [|x' a'] HL H; try discriminate; [auto|]. cbn [app] in H. injection H as -> H.
  destruct (IH a' ltac:(cbn in HL; lia) H) as [-> ->]. auto.
Qed.
Lemma dir_item_inj d di di' : carries d (dir_item_fields di) -> carries d (dir_item_fields di') -> di = di'.
Proof.
  intros H H'. destruct (C06_dir_item _ _ H) as (A1 & A2 & A3 & A4 & A5 & _). destruct (C06_dir_item _ _ H') as (B1 & B2 & B3 & B4 & B5 & _).
  rewrite A1 in B1. rewrite A2 in B2. rewrite A3 in B3. rewrite A4 in B4. rewrite A5 in B5.
  injection B1 as C1 C2 C3. injection B2 as C4. injection B3 as C5. injection B4 as C6. injection B5 as C7.
  destruct H as (_ & _ & r & Hr & _). destruct H' as (_ & _ & r' & Hr' & _). rewrite Hr in Hr'.
  destruct di as [[ko kt kf] tr ty nm da], di' as [[ko' kt' kf'] tr' ty' nm' da']. cbn [k_objectid k_type k_offset di_location di_transid di_type di_name di_data] in *.
  subst. unfold ser, dir_item_fields, key_fields in Hr'. cbn [k_objectid k_type k_offset di_location di_transid di_type di_name di_data app flat_map ser1] in Hr'.
  rewrite C5, C6 in Hr'. rewrite <- !app_assoc in Hr'. do 7 apply app_inv_head in Hr'. unfold zlen in *.
  apply app_eq_len in Hr' as [-> Hr']; [|lia]. apply app_eq_len in Hr' as [-> Hr']; [|lia]. reflexivity.
Qed.
Lemma holds_inj v di di' : holds v (dir_item_fields di) -> holds v (dir_item_fields di') -> di = di'.
Proof. intros (d & Hd & Hc) (d' & Hd' & Hc'). rewrite Hd in Hd'. injection Hd' as <-. exact (dir_item_inj d di di' Hc Hc'). Qed.
(** a decidable test for a value holding a packed structure *)
Definition holds_b (v : list byte) (fs : list fld) : bool :=
  match valueData v with Ok d => forallb fit1b fs && bytes_eqb (s_arr d) (ser fs) && (s_len d =? zlen (ser fs)) | _ => false end.
Lemma holds_ok v fs : holds_b v fs = true -> holds v fs.
Proof.
  unfold holds_b, holds. destruct (valueData v) as [d| |]; try discriminate. rewrite !andb_true_iff. intros [[A B] C].
  exists d. split; [reflexivity|]. apply carries_whole; [apply fits_b; exact A|apply bytes_eqb_eq; exact B|lia].
Qed.
