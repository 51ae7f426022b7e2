(** C91, C92: identify, then recon; recon, then dump-index; from the command line. *)
From Verif Require Import Go GoProofs Layout LayoutProofs SpecLayout KeyFmt KeyProofs PropsKey Bolt Store StoreProofs SpecStore Session PropsSession IoUtil Recon ReconCmd PropsRecon PropsReconEx ToString Ls PropsLsEx PropsDisk Uuid PropsUuid Identify PropsIdentify PropsSamples PropsIdentifyAll Cli SpecCli PropsCli PropsWork.
From Verif Require PropsReconAny RangeProofs.
From Coq Require Import List Permutation Sorting.Sorted ZifyBool ZifyNat ZifyN Strings.String.
From Coq Require Import List Lia.
From Verif Require Import Go Store.
Ltac Zify.zify_post_hook ::= Z.div_mod_to_equations.

(** ** C91 *)
(** Every id identify reports can be given to recon as it is printed: on the same image with the same
    block size recon then succeeds, if the leaves carrying the id are sound, and indexes exactly
    their items. *)
Theorem C91_identify_recon : forall o1 h g img D wish minb maxb mino h' rows,
  h_dev h img = Some (file_dev D) -> accepted (zlen D) (g_blockSize g) -> room (zlen D) (g_blockSize g) -> 126 <= g_blockSize g -> draws (zlen D) (g_blockSize g) (o_rnd o1) ->
  is_u64 wish -> is_u64 minb -> is_u64 maxb -> (forall m, Permutation (o_order o1 m) m) -> (forall id, o_ent o1 id <> SpecFloat.S754_nan) ->
  btrfscue o1 h g (CIdentify wish minb maxb mino) [img] = mkResult h' (OReport rows) Exit0 ->
  h' = h /\ forall e, In e rows ->
    let id := e_FSID e in
    (exists p, inside (zlen D) (g_blockSize g) p /\ leaf_of id (block_at D (g_blockSize g) p) = true) /\
    forall o2 a is, no_trouble o2 -> g_metadata g <> [] -> h_db h (g_metadata g) = NoFile -> image_items id D (g_blockSize g) is ->
    exists h1 b, btrfscue o2 h' g (CRecon (Some (Uuid.String id)) a) [img] = mkResult h1 ONone Exit0 /\ gained h h1 (g_metadata g) b /\
      forall o k gen v, wf_tuple o k gen -> o <> 2^64 - 1 ->
        stored b o k gen v <-> (exists x i y, is = x ++ i :: y /\ same_tuple i o k gen /\ v = i_item i ++ i_data i /\ forall j, In j y -> ~ same_tuple j o k gen).
Proof.
  intros o1 h g img D wish minb maxb mino h' rows Hd Ha HR Hb Hdr Uw Umi Uma HO HE HX.
  unfold btrfscue in HX. change (args_ok (CIdentify wish minb maxb mino) [img]) with true in HX. cbn [negb] in HX. unfold run_identify in HX. rewrite Hd in HX. cbn [file_dev dev_seek dev_read] in HX.
  destruct (IdentifyFS (o_fuel o1) (o_rnd o1) (o_ent o1) (zlen D, true) (file_reader D) (g_blockSize g) wish minb maxb mino (o_order o1)) as [out| |] eqn:EI; cbn [on_res] in HX; [|discriminate..].
  destruct (C72_report _ _ _ _ _ _ _ _ _ _ _ Ha HR Hb Hdr Uw Umi Uma HO HE EI) as (rows' & l & -> & _ & _ & _ & HL & HC & _). assert (rows' = rows /\ h' = h) as [-> ->] by (split; congruence). split; [reflexivity|].
  intros e He id. destruct (proj1 (HC id (e_Count e)) (ex_intro _ e (conj He (conj eq_refl eq_refl)))) as (Hn & En & H0 & _).
  assert (HP : exists p, In p l /\ leaf_of id (block_at D (g_blockSize g) p) = true).
  { destruct (sampled_leaves D (g_blockSize g) id l) as [|p ps] eqn:ES; [unfold zlen in En; cbn [Datatypes.length] in En; lia|]. exists p. apply (filter_In (fun o => leaf_of id (block_at D (g_blockSize g) o))). change (In p (sampled_leaves D (g_blockSize g) id l)). rewrite ES. left. reflexivity. }
  destruct HP as (p & Hp & HLf). pose proof (proj1 (HL p Hp)) as HIn.
  assert (Hid : Datatypes.length id = 16%nat).
  { unfold leaf_of in HLf. apply andb_prop in HLf as [H1 _]. apply bytes_eqb_eq in H1. rewrite <- H1. unfold part, block_at, part. rewrite firstn_length, skipn_length, firstn_length, skipn_length. destruct HIn. unfold zlen in *. lia. }
  split; [exists p; split; assumption|]. intros o2 a is HT Hm Hf HI.
  assert (HB : big_enough D (g_blockSize g)) by (destruct Ha as ((A1 & A2) & A3 & A4); split; [lia|]; split; [clear -A3; lia|exact A4]).
  assert (HZ : id <> repeat x00 16) by (intros Z; apply Hn; left; exact Z).
  destruct (open_none (g_blockSize g) id Hid) as (ix0 & HOp). destruct (C37_exact_partial id D (g_blockSize g) None _ ix0 is HB ltac:(lia) Hid HZ ltac:(discriminate) HOp HI) as (b & HRun & Op & _ & HS).
  assert (HSp : spells (Uuid.String id) id). { destruct (C32_parse (repeat x00 16) (Uuid.String id)) as [HC0 _]. destruct (C32_roundtrip id (repeat x00 16) Hid) as [H1 _]. apply HC0. exact H1. }
  destruct (recon_cmd o2 h g (Uuid.String id) id a img D b HT Hd Hm Hf HB HSp Hid HZ HRun) as (h1 & H1 & H2). exists h1, b. split; [exact H1|]. split; [exact H2|].
  intros ow k gen v WT Ho. rewrite (HS ow k gen v WT Ho). split; [|auto]. intros [H|[H _]]; [exact H|]. exfalso. unfold stored in H. destruct H as [H|[]]. assert (E : newIndexKey ow k gen = metadataKey) by congruence. rewrite PropsReconAny.metadata_tuple in E.
  apply newIndexKey_inj in E; [destruct E as (E & _); contradiction|exact WT|]. unfold wf_tuple, wf_Key, is_u64, is_u8; cbn [ObjectID KType KOffset]; lia.
Qed.
Print Assumptions C91_identify_recon.

(** ** C92 *)
(** what dump-index prints for a list of entries (owner, key, generation): a heading where the owner
    differs from the entry before, and a line for each entry *)
Fixpoint listing (last : option Z) (ts : list (Z * Key * Z)) : list byte :=
  match ts with
  | [] => []
  | (o, k, g) :: ts =>
      (if match last with Some l => o =? l | None => false end then [] else str "owner "%string ++ dec o ++ [x0a]) ++
      Key_String k ++ str " @ "%string ++ dec g ++ [x0a] ++ listing (Some o) ts
  end.
(** order of the entries: owner, type, object id, offset, generation *)
Definition earlier (x y : Z * Key * Z) : Prop := tuple_compare (fst (fst x)) (snd (fst x)) (snd x) (fst (fst y)) (snd (fst y)) (snd y) = Lt.

Lemma last_exists : forall is i, In i is -> exists e, PropsReconAny.last_in is e /\ fst e = PropsReconAny.ikey i.
Proof.
  induction is as [|j is IH]; intros i Hi; [destruct Hi|]. destruct (in_dec (list_eq_dec Byte.byte_eq_dec) (PropsReconAny.ikey i) (map PropsReconAny.ikey is)) as [H|H].
  - apply in_map_iff in H as (i' & Ei & Hi'). destruct (IH i' Hi') as (e & (x & i0 & z & E & E1 & E2) & Ee). exists e. split; [exists (j :: x), i0, z; rewrite E; auto|congruence].
  - destruct Hi as [->|Hi]; [|destruct H; apply in_map; exact Hi]. exists (PropsReconAny.ikey i, PropsReconAny.ival i). split; [|reflexivity]. exists [], i, is. split; [reflexivity|]. split; [reflexivity|]. intros j Hj E. apply H. cbn [fst] in E. rewrite <- E. apply in_map. exact Hj.
Qed.
Definition tuple_of (e : entry) : Z * Key * Z := (ik_Owner (fst e), ik_Key (fst e), ik_Generation (fst e)).
Lemma dump_listing es : forall last, dump_text last es = listing last (map tuple_of es).
Proof. induction es as [|[k v] es IH]; intros last; [reflexivity|]. cbn [map]. unfold tuple_of at 1. cbn [fst dump_text listing]. rewrite IH. reflexivity. Qed.
Lemma en_earlier x y : Datatypes.length (fst x) = 33%nat -> Datatypes.length (fst y) = 33%nat -> en x < en y -> earlier (tuple_of x) (tuple_of y).
Proof.
  intros Lx Ly H. unfold earlier, tuple_of. cbn [fst snd]. destruct (key_split (fst x) Lx) as [Ex Wx]. destruct (key_split (fst y) Ly) as [Ey Wy].
  rewrite <- C02_order by assumption. rewrite <- Ex, <- Ey. rewrite cmp33 by assumption. apply Z.compare_lt_iff. exact H.
Qed.
Lemma bucket_sorted b : wf_bucket b -> StronglySorted earlier (map tuple_of b).
Proof.
  induction b as [|e b IH]; intros W; [constructor|]. cbn [map]. destruct (wf_app_inv [e] b W) as (_ & Wb & H). constructor; [exact (IH Wb)|].
  apply Forall_forall. intros t Ht. apply in_map_iff in Ht as (y & <- & Hy). apply en_earlier; [exact (wf_len _ e W (or_introl eq_refl))|exact (wf_len _ y W (or_intror Hy))|]. apply H; [left; reflexivity|exact Hy].
Qed.
Lemma owner_below o k g : wf_tuple o k g -> o < 2^64 - 1 -> num o k g < num (2^64 - 1) (mkKey (2^64 - 256) 255 (2^64 - 1)) (2^64 - 1).
Proof. intros (Ho & (K1 & K2 & K3) & Hg) Hlt. unfold num, knum. cbn [KType ObjectID KOffset]. unfold is_u64, is_u8 in *. nia. Qed.
(** After recon dump-index prints one line for every distinct item of the image, in order, and
    finally the line of the metadata record. *)
Theorem C92_recon_dump : forall o1 h g1 t id a img D is,
  no_trouble o1 -> h_dev h img = Some (file_dev D) -> g_metadata g1 <> [] -> h_db h (g_metadata g1) = NoFile ->
  big_enough D (g_blockSize g1) -> 101 <= g_blockSize g1 -> spells t id -> Datatypes.length id = 16%nat -> id <> repeat x00 16 ->
  image_items id D (g_blockSize g1) is -> is <> [] ->
  exists h1 b ts, btrfscue o1 h g1 (CRecon (Some t) a) [img] = mkResult h1 ONone Exit0 /\ gained h h1 (g_metadata g1) b /\
    StronglySorted earlier ts /\ (forall o k g, In (o, k, g) ts <-> exists i, In i is /\ same_tuple i o k g) /\
    forall o2 g2, g_metadata g2 = g_metadata g1 -> (Datatypes.length ts + 2 < o_fuel o2)%nat ->
      btrfscue o2 h1 g2 CDumpIndex [] = mkResult h1 (ODump (listing None (ts ++ [(2^64 - 1, mkKey (2^64 - 256) 255 (2^64 - 1), 2^64 - 1)]))) Exit0.
Proof.
  intros o1 h g1 t id a img D is HO Hd Hm Hf HB Hb HS HL HZ HI Hne.
  set (o := mkOptions false (g_blockSize g1) id (2^64 - 1) false). set (m := newIndexMetadata o).
  destruct (open_none (g_blockSize g1) id HL) as (ix0 & HOp). fold o in HOp. fold m in HOp.
  destruct (recon_run id D (g_blockSize g1) None (Some [(metadataKey, m)]) ix0 HB HZ HOp) as (b0' & E0 & HRun). assert (b0' = [(metadataKey, m)]) by congruence. subst b0'.
  rewrite (trace_items id D _ is HB Hb HI) in HRun. cbn [fst snd] in HRun. destruct (items_wf _ _ _ _ HI) as [W1 W2]. pose proof (items_value _ _ _ _ HI) as HV.
  assert (Op0 : opened [(metadataKey, m)]) by (split; [split; [cbn; auto|repeat constructor]|exists m; left; reflexivity]).
  destruct (PropsReconAny.puts_In is [(metadataKey, m)] (proj1 Op0)) as [Wb HIn]. set (b := fold_left put_ins is [(metadataKey, m)]) in *.
  assert (Op : opened b) by (apply puts_opened; assumption).
  assert (G : get b metadataKey = Some m) by (unfold b; rewrite PropsReconAny.get_metadata_puts by assumption; apply get_In; [apply Op0|left; reflexivity]).
  destruct (recon_cmd o1 h g1 t id a img D b HO Hd Hm Hf HB HS HL HZ HRun) as (h1 & HR & HG).
  assert (WF : forall i, In i is -> wf_tuple (i_owner i) (i_key i) (i_gen i)) by (intros i Hi; rewrite Forall_forall in W1; exact (proj1 (W1 i Hi))).
  assert (HE : forall e, In e b -> e = (metadataKey, m) \/ exists i, In i is /\ fst e = newIndexKey (i_owner i) (i_key i) (i_gen i) /\ snd e = i_item i ++ i_data i).
  { intros e He. apply HIn in He. destruct He as [(x & i & z & E & E1 & _)|[[<-|[]] _]]; [|left; reflexivity]. right. exists i. assert (Hi : In i is) by (rewrite E; apply in_or_app; right; left; reflexivity).
    split; [exact Hi|]. destruct (HV i Hi) as (_ & A & _). rewrite E1. split; [reflexivity|exact A]. }
  assert (Hmax : forall i, In i is -> be_decode (newIndexKey (i_owner i) (i_key i) (i_gen i)) < be_decode metadataKey).
  { intros i Hi. rewrite newIndexKey_num by (exact (WF i Hi)). rewrite PropsReconAny.metadata_tuple, newIndexKey_num by (unfold wf_tuple, wf_Key, is_u64, is_u8; cbn [ObjectID KType KOffset]; lia). apply owner_below; [exact (WF i Hi)|]. destruct (HV i Hi) as [A _]. exact A. }
  (* the record is last *)
  assert (HIm : In (metadataKey, m) b) by (apply get_In; [exact Wb|exact G] || (destruct (get_In b metadataKey m Wb) as [X Y]; auto)).
  destruct (in_split _ _ HIm) as (es & rest & EB). assert (rest = []).
  { destruct rest as [|e rest]; [reflexivity|exfalso]. rewrite EB in Wb. replace (es ++ (metadataKey, m) :: e :: rest) with ((es ++ [(metadataKey, m)]) ++ e :: rest) in Wb by (rewrite <- app_assoc; reflexivity).
    destruct (wf_app_inv _ _ Wb) as (_ & _ & H). specialize (H (metadataKey, m) e ltac:(apply in_or_app; right; left; reflexivity) (or_introl eq_refl)). unfold en in H. cbn [fst] in H.
    destruct (HE e) as [->|(i & Hi & Ee & _)]; [rewrite EB; apply in_or_app; right; right; left; reflexivity|cbn [fst] in H; lia|]. rewrite Ee in H. specialize (Hmax i Hi). lia. }
  subst rest. assert (HEs : forall e, In e es -> exists i, In i is /\ fst e = newIndexKey (i_owner i) (i_key i) (i_gen i) /\ snd e = i_item i ++ i_data i).
  { intros e He. destruct (HE e) as [->|H]; [rewrite EB; apply in_or_app; left; exact He| |exact H]. exfalso. rewrite EB in Wb. destruct (wf_app_inv _ _ Wb) as (_ & _ & H). specialize (H (metadataKey, m) (metadataKey, m) He (or_introl eq_refl)). lia. }
  assert (HTs : forall e i, In i is -> fst e = newIndexKey (i_owner i) (i_key i) (i_gen i) -> tuple_of e = (i_owner i, i_key i, i_gen i)).
  { intros e i Hi Ee. unfold tuple_of. rewrite Ee. destruct (C01_roundtrip _ _ _ (WF i Hi)) as (_ & A & _ & _ & _ & B & C). rewrite A, B, C. reflexivity. }
  assert (HIs : forall i, In i is -> exists e, In e es /\ fst e = newIndexKey (i_owner i) (i_key i) (i_gen i)).
  { intros i Hi. assert (S : exists v, In (newIndexKey (i_owner i) (i_key i) (i_gen i), v) b).
    { destruct (last_exists is i Hi) as (e & HLa & Ek). exists (snd e). assert (X : In e b) by (apply HIn; left; exact HLa). replace (newIndexKey (i_owner i) (i_key i) (i_gen i)) with (fst e) by exact Ek. destruct e; exact X. }
    destruct S as (v & Sv). rewrite EB in Sv. apply in_app_or in Sv as [Sv|[Sv|[]]]; [exists (newIndexKey (i_owner i) (i_key i) (i_gen i), v); split; [exact Sv|reflexivity]|]. exfalso. specialize (Hmax i Hi). assert (X : metadataKey = newIndexKey (i_owner i) (i_key i) (i_gen i)) by congruence. rewrite <- X in Hmax. lia. }
  exists h1, b, (map tuple_of es). split; [exact HR|]. split; [exact HG|]. assert (Wes : wf_bucket es) by (rewrite EB in Wb; apply (wf_app_inv _ _ Wb)). split; [exact (bucket_sorted es Wes)|]. split.
  - intros ow k gen. split.
    + intros H. apply in_map_iff in H as (e & E & He). destruct (HEs e He) as (i & Hi & Ee & _). exists i. split; [exact Hi|]. rewrite (HTs e i Hi Ee) in E. unfold same_tuple. split; [congruence|split; congruence].
    + intros (i & Hi & A & B & C). destruct (HIs i Hi) as (e & He & Ee). apply in_map_iff. exists e. split; [rewrite (HTs e i Hi Ee); congruence|exact He].
  - intros o2 g2 Em Hfu. destruct HG as (G1 & _). pose proof G as G'. change m with (md_record 20190809 (u32 (o_BlockSize o)) (o_FSID o) (o_Generation o)) in G'.
    destruct (C25_open_existing ro_options b _ _ _ _ Wb G') as [(_ & ix & HX & _ & _ & HGn & HTx & _)|[HN _]]; [unfold is_u64; lia|apply u32_range|exact HL| |].
    2:{ destruct HN. split; [lia|]. split; [right; reflexivity|left; reflexivity]. }
    unfold btrfscue. change (args_ok CDumpIndex []) with true. cbn [negb]. unfold run_dump. rewrite Em. destruct (zlen (g_metadata g1) =? 0) eqn:EM; [apply metadata_empty in EM; contradiction|].
    rewrite (open_cmd h1 (g_metadata g1) b ix _ G1 HX HTx). rewrite HGn. change (o_Generation ro_options) with (2^64 - 1). rewrite map_length in Hfu.
    assert (Hes : es <> []). { destruct is as [|i is0]; [contradiction|]. destruct (HIs i (or_introl eq_refl)) as (e & He & _). intros ->. destruct He. }
    rewrite EB. rewrite (C66_dump_partial es m (o_fuel o2) Hes); [| | |intros e He|exact Hfu].
    + cbn [on_res]. rewrite dump_listing, map_app. cbn [map]. unfold tuple_of at 2. cbn [fst]. destruct (C01_roundtrip (2^64 - 1) (mkKey (2^64 - 256) 255 (2^64 - 1)) (2^64 - 1)) as (_ & A & _ & _ & _ & B & C); [unfold u64_tuple, u64_key, is_u64, is_u8; cbn [ObjectID KType KOffset]; lia|].
      rewrite <- PropsReconAny.metadata_tuple in A, B, C. rewrite A, B, C. reflexivity.
    + rewrite <- EB. exact Wb.
    + intros e He. destruct (HEs e He) as (i & Hi & _ & Ev). rewrite Ev. destruct (HV i Hi) as (_ & _ & A). eauto.
    + destruct (HEs e He) as (i & Hi & Ee & _). rewrite Ee. destruct (C01_roundtrip _ _ _ (WF i Hi)) as (_ & A & _). rewrite A. destruct (HV i Hi) as [B _]. unfold max64 in B. lia.
Qed.
Print Assumptions C92_recon_dump.
