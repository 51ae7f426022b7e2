(** C72: identify, from the bytes of the image to the rows of the report. *)
From Verif Require Import Go GoProofs Layout LayoutProofs SpecLayout IoUtil Identify PropsIdentify PropsSamples.
From Coq Require Import ZifyBool ZifyNat Sorting.Sorted Permutation List Lia.
Ltac Zify.zify_post_hook ::= Z.div_mod_to_equations.

(** ** specification *)
(** the block at a position of the image, and the positions of a list that hold a leaf carrying [id] *)
Definition block_at (D : list byte) (bs o : Z) : list byte := part o bs D.
Definition sampled_leaves (D : list byte) (bs : Z) (id : list byte) (l : list Z) : list Z := filter (fun o => leaf_of id (block_at D bs o)) l.
(** the number of samples for the options: a wish, not below [minb], not above [maxb] *)
Definition clamp (wish minb maxb : Z) : Z := if wish <? minb then minb else Z.min wish maxb.
(** the fixed samples lie inside the image (see C43 for what happens otherwise) *)
Definition room (size bs : Z) : Prop := 64 * 2^20 + 200 * bs <= size /\ (256 * 2^30 <= size -> 256 * 2^30 + 300 * bs <= size).

(** ** proofs *)
Lemma sample_loop_reads D bs : 126 <= bs -> forall l buf h, zlen buf = bs -> (forall o, In o l -> inside (zlen D) bs o /\ o < 2^63) ->
  exists h', sample_loop (file_reader D) buf l h = Ok (Some h') /\ CollectBlocks (map sl (map (block_at D bs) l)) h = Ok h'.
Proof.
  intros Hb. induction l as [|o l IH]; intros buf h Zb HI; [exists h; split; reflexivity|]. destruct (HI o (or_introl eq_refl)) as [[H1 H2] H3]. cbn [sample_loop map CollectBlocks].
  unfold ReadBlockAt, file_reader. rewrite Zb. replace (i64 o) with o by (unfold i64; rewrite Z.mod_small; lia). replace (o <? 0) with false by lia.
  change (firstn (Z.to_nat bs) (skipn (Z.to_nat o) D)) with (block_at D bs o). set (d := block_at D bs o).
  assert (Zd : zlen d = bs) by (unfold d, block_at, part; unfold zlen in *; rewrite firstn_length, skipn_length; lia).
  rewrite Zd. replace (bs <? bs) with false by lia. replace (bs =? bs) with true by lia.
  replace (d ++ skipn (length d) buf) with d by (rewrite skipn_all2; [symmetry; apply app_nil_r|unfold zlen in *; lia]).
  destruct (CollectBlock_total d h) as (h1 & ->); [lia|]. cbn [rbind]. apply IH; [exact Zd|]. intros x Hx. apply HI. right. exact Hx.
Qed.
Lemma leaves_map D bs id l : zlen (leaves_of id (map (block_at D bs) l)) = zlen (sampled_leaves D bs id l).
Proof. unfold leaves_of, sampled_leaves. induction l as [|o l IH]; [reflexivity|]. cbn [map filter]. destruct (leaf_of id (block_at D bs o)); [rewrite !zlen_cons, IH; reflexivity|exact IH]. Qed.

(** C72.  Whatever is sampled, if identify ends it prints this report about the samples. *)
Theorem C72_report : forall fuel rnd ent bs wish minb maxb mino order D out,
  accepted (zlen D) bs -> room (zlen D) bs -> 126 <= bs -> draws (zlen D) bs rnd ->
  is_u64 wish -> is_u64 minb -> is_u64 maxb -> (forall h, Permutation (order h) h) -> (forall id, ent id <> SpecFloat.S754_nan) ->
  IdentifyFS fuel rnd ent (zlen D, true) (file_reader D) bs wish minb maxb mino order = Ok out ->
  exists rows l, out = Some rows /\
    (* the samples *)
    zlen l = clamp wish minb maxb /\ StronglySorted Z.lt l /\ (forall o, fixed (zlen D) bs o -> In o l) /\ (forall o, In o l -> inside (zlen D) bs o /\ (fixed (zlen D) bs o \/ aligned_block (zlen D) bs o)) /\
    (* the report *)
    (forall id n, (exists e, In e rows /\ e_FSID e = id /\ e_Count e = n) <-> ~ no_id id /\ n = zlen (sampled_leaves D bs id l) /\ 0 < n /\ mino <= n) /\
    (forall e, In e rows -> e_Entropy e = ent (e_FSID e)) /\ NoDup (map e_FSID rows) /\ StronglySorted before rows.
Proof.
  intros fuel rnd ent bs wish minb maxb mino order D out Ha (R1 & R2) Hb Hd Uw Umi Uma HO HE. pose proof Ha as ((H1 & H2) & H3 & H4). unfold IdentifyFS.
  assert (EC : CheckDeviceSize (zlen D, true) bs = (zlen D, true)).
  { unfold CheckDeviceSize. rewrite (u64_id (zlen D)) by lia. change SuperInfoOffset2 with (64 * 2^20). rewrite (u64_id (bs * 100)) by lia. rewrite u64_id by lia. replace (zlen D <? bs) with false by lia. replace (zlen D <? 64 * 2^20 + bs * 100) with false by lia. reflexivity. }
  rewrite EC. cbn [negb]. replace (bs =? 0) with false by lia. cbv zeta.
  set (n := if wish <? minb then minb else if maxb <? wish then maxb else wish). assert (En : n = clamp wish minb maxb) by (unfold n, clamp; destruct (wish <? minb); [reflexivity|]; destruct (maxb <? wish) eqn:E; lia).
  destruct (MakeSampleOffsets fuel rnd (zlen D) bs n) as [l| |] eqn:Em; cbn [rbind]; [|discriminate..].
  destruct (C43_samples_partial fuel rnd _ bs n l Ha Hd Em) as (L1 & L2 & L3 & L4 & L5). specialize (L5 R1 R2).
  destruct (sample_loop_reads D bs Hb l (repeat x00 (Z.to_nat bs)) []) as (h & EL & EB); [rewrite zlen_repeat; lia|intros o Ho; specialize (L5 o Ho); split; [exact L5|unfold inside in L5; lia]|].
  rewrite EL. cbn [rbind]. intros E. assert (Eo : out = Some (Entries ent mino (order h))) by congruence. subst out. clear E.
  assert (HZ : zlen (map (block_at D bs) l) < 2^64).
  { replace (zlen (map (block_at D bs) l)) with (zlen l) by (unfold zlen; rewrite map_length; reflexivity). rewrite L1, En. unfold clamp, is_u64 in *. destruct (wish <? minb); lia. }
  pose proof (Inv_all (map (block_at D bs) l) [] [] h Inv_nil ltac:(rewrite zlen_nil; lia) EB) as [ND _].
  pose proof (fun id k => C40_counts _ h ent mino (order h) HZ EB (HO h) id k) as HC.
  destruct (C41_order_partial ent mino h (order h) HE ND (HO h)) as (O1 & _ & O3 & _).
  exists (Entries ent mino (order h)), l. split; [reflexivity|]. split; [congruence|]. split; [exact L2|]. split; [exact L3|]. split; [intros o Ho; split; [exact (L5 o Ho)|exact (L4 o Ho)]|]. split.
  - intros id k. rewrite (HC id k), leaves_map. reflexivity.
  - split; [|split; assumption]. intros e He. apply Entries_In in He as (id & c & _ & _ & ->). reflexivity.
Qed.
(** ... it ends, with a fair random source, if there are enough but not too many samples *)
Theorem C72_ends : forall rnd ent bs wish minb maxb mino order D avail,
  accepted (zlen D) bs -> room (zlen D) bs -> 126 <= bs -> draws (zlen D) bs rnd -> fair (zlen D) bs rnd -> available (zlen D) bs avail ->
  fixed_count (zlen D) <= clamp wish minb maxb <= zlen avail ->
  exists fuel rows, IdentifyFS fuel rnd ent (zlen D, true) (file_reader D) bs wish minb maxb mino order = Ok (Some rows).
Proof.
  intros rnd ent bs wish minb maxb mino order D avail Ha (R1 & R2) Hb Hd Hf Hav Hn. pose proof Ha as ((H1 & H2) & H3 & H4).
  destruct (C43_terminates_partial rnd (zlen D) bs (clamp wish minb maxb) avail Ha Hd Hav Hf Hn) as (fuel & l & EM). exists fuel. unfold IdentifyFS.
  assert (EC : CheckDeviceSize (zlen D, true) bs = (zlen D, true)).
  { unfold CheckDeviceSize. rewrite (u64_id (zlen D)) by lia. change SuperInfoOffset2 with (64 * 2^20). rewrite (u64_id (bs * 100)) by lia. rewrite u64_id by lia. replace (zlen D <? bs) with false by lia. replace (zlen D <? 64 * 2^20 + bs * 100) with false by lia. reflexivity. }
  rewrite EC. cbn [negb]. replace (bs =? 0) with false by lia. cbv zeta.
  replace (if wish <? minb then minb else if maxb <? wish then maxb else wish) with (clamp wish minb maxb) by (unfold clamp; destruct (wish <? minb); [reflexivity|]; destruct (maxb <? wish) eqn:E; lia).
  rewrite EM. cbn [rbind]. destruct (C43_samples_partial fuel rnd _ bs _ l Ha Hd EM) as (_ & _ & _ & _ & L5). specialize (L5 R1 R2).
  destruct (sample_loop_reads D bs Hb l (repeat x00 (Z.to_nat bs)) []) as (h & EL & _); [rewrite zlen_repeat; lia|intros o Ho; specialize (L5 o Ho); split; [exact L5|unfold inside in L5; lia]|].
  rewrite EL. cbn [rbind]. eauto.
Qed.
(** an id with enough leaves at the fixed positions is reported, whatever else is sampled *)
Theorem C72_found : forall fuel rnd ent bs wish minb maxb mino order D out id ps,
  accepted (zlen D) bs -> room (zlen D) bs -> 126 <= bs -> draws (zlen D) bs rnd ->
  is_u64 wish -> is_u64 minb -> is_u64 maxb -> (forall h, Permutation (order h) h) -> (forall id, ent id <> SpecFloat.S754_nan) ->
  NoDup ps -> (forall o, In o ps -> fixed (zlen D) bs o /\ leaf_of id (block_at D bs o) = true) -> ~ no_id id -> ps <> [] -> mino <= zlen ps ->
  IdentifyFS fuel rnd ent (zlen D, true) (file_reader D) bs wish minb maxb mino order = Ok out ->
  exists rows e, out = Some rows /\ In e rows /\ e_FSID e = id /\ zlen ps <= e_Count e.
Proof.
  intros fuel rnd ent bs wish minb maxb mino order D out id ps Ha HR Hb Hd Uw Umi Uma HO HE ND HP Hid Hne Hm HX.
  destruct (C72_report fuel rnd ent bs wish minb maxb mino order D out Ha HR Hb Hd Uw Umi Uma HO HE HX) as (rows & l & E & _ & _ & HF & _ & HC & _).
  assert (HL : zlen ps <= zlen (sampled_leaves D bs id l)).
  { unfold zlen. apply inj_le. apply NoDup_incl_length; [exact ND|]. intros o Ho. destruct (HP o Ho) as [F L]. apply filter_In. split; [apply HF; exact F|exact L]. }
  assert (H0 : 0 < zlen ps) by (destruct ps as [|p ps]; [congruence|rewrite zlen_cons; pose proof (zlen_nonneg ps); lia]).
  destruct (proj2 (HC id (zlen (sampled_leaves D bs id l)))) as (e & He & E1 & E2); [split; [exact Hid|split; [reflexivity|lia]]|].
  exists rows, e. split; [exact E|]. split; [exact He|]. split; [exact E1|]. rewrite E2. exact HL.
Qed.
Print Assumptions C72_report. Print Assumptions C72_ends. Print Assumptions C72_found.
