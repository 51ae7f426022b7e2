(** C78: recon on a damaged image, then recover: what the damage has left. *)
From Verif Require Import Go GoProofs Layout LayoutProofs SpecLayout LeafProofs StructProofs PropsLayout KeyFmt KeyProofs Bolt Store StoreProofs SpecStore RangeProofs PropsStore PropsRange Session PropsSession IoUtil Recon PropsRecon PropsReconEx RangeItems.
From Verif Require Import ToString Fs Recover SpecFs SpecContent SpecTree SpecDisk DiskProofs PropsDest PropsDisk SpecDamage TreeLegible PropsDamage SpecLoss LossProofs PropsLoss.
From Verif Require TreeRun PropsRecoverDfs PropsRecoverEx.
From Coq Require Import ZifyBool ZifyNat ZifyN.
Ltac Zify.zify_post_hook ::= Z.div_mod_to_equations.

(** every item that is left on the damaged image is the newest version of this item *)
Definition newest_left (is is' : list insertion) : Prop := forall o k i, item_at is' o k = Some i -> item_at is o k = Some i.

Lemma isorted_cons i l : isorted (i :: l) -> isorted l /\ forall j, In j l -> key_lt (i_key i) (i_key j).
Proof. intros H. inversion H as [|? ? H1 H2]; subst. split; [exact H1|]. rewrite Forall_forall in H2. exact H2. Qed.
Lemma sorted_part l : isorted l -> forall l', isorted l' -> (forall i, In i l' -> In i l) -> part_of l' l.
Proof.
  induction l as [|y l IH]; intros HS l' HS' HI.
  - destruct l' as [|x l']; [constructor|]. destruct (HI x (or_introl eq_refl)).
  - apply isorted_cons in HS as [S1 S2]. destruct l' as [|x l']; [apply part_nil|]. pose proof HS' as HS2. apply isorted_cons in HS' as [T1 T2]. destruct (HI x (or_introl eq_refl)) as [->|Hx].
    + apply po_keep. apply IH; [exact S1|exact T1|]. intros i Hi. destruct (HI i (or_intror Hi)) as [->|H]; [destruct (klt_irrefl _ (T2 i Hi))|exact H].
    + apply po_drop. apply IH; [exact S1|exact HS2|]. intros i Hi. destruct (HI i Hi) as [->|H]; [|exact H]. exfalso. destruct Hi as [->|Hi]; [exact (klt_irrefl _ (S2 _ Hx))|exact (klt_irrefl _ (klt_trans _ _ _ (S2 _ Hx) (T2 _ Hi)))].
Qed.
Lemma find_key l i : isorted l -> In i l -> List.find (fun j => same_keyb (i_key j) (i_key i)) l = Some i.
Proof.
  induction l as [|y l IH]; intros HS Hi; [destruct Hi|]. apply isorted_cons in HS as [S1 S2]. cbn [List.find]. destruct (same_keyb (i_key y) (i_key i)) eqn:E.
  - apply same_keyb_eq in E. destruct Hi as [->|Hi]; [reflexivity|]. exfalso. specialize (S2 i Hi). rewrite E in S2. exact (klt_irrefl _ S2).
  - destruct Hi as [->|Hi]; [|exact (IH S1 Hi)]. exfalso. assert (H : same_keyb (i_key i) (i_key i) = true) by (apply same_keyb_eq; reflexivity). congruence.
Qed.
Lemma part_filter X (f : X -> bool) (a b : list X) : part_of a b -> part_of (filter f a) (filter f b).
Proof. induction 1 as [|y l' l H IH|y l' l H IH]; cbn [filter]; [constructor|destruct (f y); [constructor|]; exact IH|destruct (f y); [constructor|]; exact IH]. Qed.
Lemma part_map X Y (f : X -> Y) (a b : list X) : part_of a b -> part_of (map f a) (map f b).
Proof. induction 1 as [|y l' l H IH|y l' l H IH]; cbn [map]; constructor; exact IH. Qed.
Section Lost.
  Variables is is' : list insertion.
  Hypothesis HN : newest_left is is'.
  Lemma tree_part o : part_of (tree_items is' o) (tree_items is o).
  Proof.
    apply sorted_part; [apply tree_sorted|apply tree_sorted|]. intros i Hi. specialize (HN o (i_key i) i). unfold item_at in HN. rewrite (find_key _ _ (tree_sorted is' o) Hi) in HN. specialize (HN eq_refl). apply find_some in HN. exact (proj1 HN).
  Qed.
  Lemma table_misses cs : misses (table is cs) (table is' cs).
  Proof.
    assert (HI : forall o k, @Ok (option slice) (item_data (item_at is' o k)) = Ok None \/ @Ok (option slice) (item_data (item_at is' o k)) = Ok (item_data (item_at is o k))).
    { intros o k. destruct (item_at is' o k) as [i|] eqn:E; [right; rewrite (HN _ _ _ E); reflexivity|left; reflexivity]. }
    split; cbn [table q_dirItems q_inode q_extents q_extent0 q_physical q_subvolumes st_items st_end].
    - intros o d. split; [|reflexivity]. apply part_map, part_filter, tree_part.
    - intros o i. apply HI.
    - intros o d. split; [|reflexivity]. apply part_map, part_filter, tree_part.
    - intros o i. apply HI.
    - auto.
    - split; [|reflexivity]. apply part_map, part_filter, tree_part.
  Qed.
End Lost.

Lemma names_fine1 o di o' d' : names_dir o di (o', d') -> fine o -> (forall loc, DirItem_Location di = Ok loc -> fine (ObjectID loc)) -> fine o'.
Proof. intros (n & t & loc & _ & _ & _ & A & [[_ B]|(_ & _ & B)]) Fo Fl; assert (E : o' = fst (o', d')) by reflexivity; rewrite B in E; cbn [fst] in E; subst o'; [exact (Fl loc A)|exact Fo]. Qed.
Lemma names_fine2 o di o' d' : names_dir o di (o', d') -> (forall loc, DirItem_Location di = Ok loc -> fine (ObjectID loc)) -> fine d'.
Proof. intros (n & t & loc & _ & _ & _ & A & [[_ B]|(_ & _ & B)]) Fl; assert (E : d' = snd (o', d')) by reflexivity; rewrite B in E; cbn [snd] in E; subst d'; [unfold fine; change FirstFreeObjectID with 256; lia|exact (Fl loc A)]. Qed.

(** ** what is listed and complete in the table is so in the index *)
Section Agree.
  Variables (q q' : queries) (D : list byte).
  Hypothesis HA : agrees q q'.
  Hypothesis HL : forall o d e loc, In e (st_items (q_dirItems q o d)) -> DirItem_Location (snd e) = Ok loc -> fine (ObjectID loc).
  Lemma extents_agree l xs : Forall2 (is_extent q) l xs -> Forall2 (is_extent q') l xs.
  Proof using HA. induction 1; constructor; [apply (extent_agrees q q' HA); assumption|assumption]. Qed.
  Lemma listed_agrees o i c : fine o -> fine i -> ask_file (listed q D) o i c -> ask_file (listed q' D) o i c.
  Proof using HA.
    intros Fo Fi [HLg HU]. pose proof HLg as [(xs & H1 & H2) [H3 H4]]. pose proof HA as (HQ & _). destruct (HQ o i Fo Fi) as (_ & Q2 & Q3 & _). split.
    - unfold file_legible. rewrite Q2, Q3. split; [exists xs; split; [apply extents_agree; exact H1|exact H2]|auto].
    - intros c' (xs' & it & K1 & K2 & K3 & K4 & K5). rewrite Q3 in K1, K3. rewrite Q2 in K4. apply HU. rewrite (extents_fun _ _ _ _ K1 (extents_agree _ _ H1)) in *. exists xs, it. auto.
  Qed.
  Lemma listed_link_agrees o i t : fine o -> fine i -> ask_link (listed q D) o i t -> ask_link (listed q' D) o i t.
  Proof using HA.
    intros Fo Fi [HLg HU]. pose proof HA as (HQ & HP & _). destruct (HQ o i Fo Fi) as (_ & _ & _ & Q4). split.
    - destruct HLg as [H|(e & ty & H1 & H2 & H3)]; [left; congruence|right; exists e, ty]. rewrite Q4. split; [exact H1|]. split; [exact H2|]. destruct H3 as [H3|[H3|(H3 & nr & n & eo & p & A1 & A2 & A3 & A4 & A5)]]; [auto|auto|].
      right. right. split; [exact H3|]. exists nr, n, eo, p. apply HP in A4. auto.
    - intros t' (e & K1 & K2 & K3). rewrite Q4 in K1. apply HU. exists e. split; [exact K1|]. split; [|exact K3]. destruct K2 as [K2|(ty & n & nr & id & phys & eo & A1 & A2 & A3 & A4 & A5 & A6 & A7 & A8)]; [left; exact K2|right]. exists ty, n, nr, id, phys, eo.
      destruct HLg as [H|(e' & ty' & H1 & H2 & H3)]; [congruence|]. assert (e' = e) by congruence. subst e'. assert (ty' = ty) by congruence. subst ty'.
      destruct H3 as [(H3 & _)|[(_ & H3)|(H3 & nr' & n' & eo' & [id' p'] & B1 & B2 & B3 & B4 & B5)]]; [congruence|congruence|]. assert (nr' = nr) by congruence. subst nr'. pose proof (HP _ _ B4) as HP4. assert (id' = id) by congruence. assert (p' = phys) by congruence. subst id' p'. auto 12.
  Qed.
  Lemma complete_agrees bad o i : fine o -> fine i -> good_file (complete q D bad) o i -> good_file (complete q' D bad) o i.
  Proof using HA.
    intros Fo Fi [(c & HS) HF]. split; [exists c; exact (file_agrees q q' D HA o i c Fo Fi HS)|]. destruct HS as (xs & _ & H1 & _). pose proof HA as (HQ & _). destruct (HQ o i Fo Fi) as (_ & _ & Q3 & _).
    intros xs' off n src p A B C. rewrite Q3 in A. rewrite (extents_fun _ _ _ _ A (extents_agree _ _ H1)) in B. exact (HF xs off n src p H1 B C).
  Qed.
  Lemma complete_link_agrees bad o i : fine o -> fine i -> good_link (complete q D bad) o i -> good_link (complete q' D bad) o i.
  Proof using HA.
    intros Fo Fi [(t & HS) HF]. split; [exists t; exact (link_agrees q q' D HA o i t Fo Fi HS)|]. pose proof HA as (HQ & HP & _). destruct (HQ o i Fo Fi) as (_ & _ & _ & Q4).
    intros e ty n nr id phys eo p A1 A2 A3 A4 A5 A6 A7 A8. rewrite Q4 in A1. destruct HS as (e' & B1 & [(B2 & _)|(ty' & n' & nr' & id' & phys' & eo' & C1 & C2 & C3 & C4 & C5 & C6 & C7 & _)] & _); assert (e' = e) by congruence; subst e'; [congruence|].
    assert (nr' = nr) by congruence. subst nr'. pose proof (HP _ _ C6) as C6'. assert (id' = id) by congruence. assert (phys' = phys) by congruence. subst. exact (HF e ty n nr id phys eo p A1 A2 A3 A4 A5 C6 A7 A8).
  Qed.
  Lemma reaches_agree G G' : (forall o i, fine o -> fine i -> good_file G o i -> good_file G' o i) -> (forall o i, fine o -> fine i -> good_link G o i -> good_link G' o i) ->
    forall o d r, reaches q G o d r -> fine o -> fine d -> reaches q' G' o d r.
  Proof using HA HL.
    intros HF HK. pose proof HA as (HQ & _).
    apply (proj1 (reaches_mutind q G (fun o d r => fine o -> fine d -> reaches q' G' o d r) (fun o di r => fine o -> (forall loc, DirItem_Location di = Ok loc -> fine (ObjectID loc)) -> item_reaches q' G' o di r)
      (fun o d _ _ => intact_here q' G' o d)
      (fun o d k di r A _ B Fo Fd => intact_entry q' G' o d k di r (eq_ind_r (fun s => In (k, di) (st_items s)) A (proj1 (HQ o d Fo Fd))) (B Fo (fun loc => HL o d (k, di) loc A)))
      (fun o di n loc A B C Fo Fl => intact_file q' G' o di n loc A B (HF _ _ Fo (Fl loc (proj2 (proj2 A))) C)) (fun o di n loc A B C Fo Fl => intact_link q' G' o di n loc A B (HK _ _ Fo (Fl loc (proj2 (proj2 A))) C))
      (fun o di n o' d' r A B _ C Fo Fl => intact_sub q' G' o di n o' d' r A B (C (names_fine1 o di o' d' B Fo Fl) (names_fine2 o di o' d' B Fl))))).
  Qed.
End Agree.

(** ** the whole way *)
(** [is], [D]: items and bytes of the volume before the damage, [kids]: the tree they describe; [D']: the damaged
    image, [is']: the items its blocks still carry *)
Theorem C78_damaged_image : forall id D D' bs is is' cs kids E clobber dest w P cfuel,
  volume_shows (table is cs) D kids -> parents_first (table is cs) -> no_made_up (table is cs) ->
  (* the damage: any bytes of the image, but every item is left in its newest version or not at all, the chunk items are all left, and the index can answer *)
  big_enough D' bs -> 101 <= bs -> length id = 16%nat -> id <> repeat x00 16 -> zlen D' = zlen D ->
  image_items id D' bs is' -> newest_left is is' -> orderly is' -> chunks_are is' cs ->
  SpecContent.no_faults E -> 2^64 < Z.of_nat cfuel ->
  plain_dest E (w_fs w) dest P -> (forall r, r <> [] -> look (w_fs w) (P ++ r) = None) -> paths_short dest kids ->
  (forall e sub ks s, In e (st_items (q_subvolumes (table is' cs))) -> dir_shows (table is cs) D (fst (sub_top e)) (snd (sub_top e)) sub ks -> tree_at (TDir sub) s <> None ->
     path_arg (sub_path (Clean dest) (made_up e :: s)) = true) ->
  exists b ix,
    (* recon of the damaged image into a new metadata file reports success, recover opens it *)
    doScanFS true true PropsRecon.no_faults (file_dev D') bs id None = (Some b, XOk) /\
    OpenReadOnly (Some b) = Ok (Some b, Some ix) /\ ix_tx ix = Some (mkTx false b) /\
    forall rfuel, (length b + 1 < rfuel)%nat -> exists fuel0, forall fuel, (fuel0 <= fuel)%nat ->
    exists w' v, doRecoverFiles fuel cfuel E (file_reader D') (ix_queries rfuel b (ix_Generation ix)) clobber dest w = (w', Ret (true, v)) /\
      (forall r, reaches (table is' cs) (untouched (table is cs) (table is' cs) D D' (fun _ => False)) FSTreeObjectID FirstFreeObjectID r -> look (w_fs w') (P ++ r) = tree_at (TDir kids) r) /\
      (forall e, In e (st_items (q_subvolumes (table is' cs))) -> orphan (table is' cs) e -> exists sub ks, dir_shows (table is cs) D (fst (sub_top e)) (snd (sub_top e)) sub ks /\
         forall r, reaches (table is' cs) (untouched (table is cs) (table is' cs) D D' (fun _ => False)) (fst (sub_top e)) (snd (sub_top e)) r -> look (w_fs w') (P ++ made_up e :: r) = tree_at (TDir sub) r) /\
      (forall r nd, look (w_fs w') (P ++ r) = Some nd -> (exists nd', tree_at (TDir kids) r = Some nd' /\ kind_of nd = kind_of nd') \/
         exists e sub ks s, In e (st_items (q_subvolumes (table is' cs))) /\ r = made_up e :: s /\ dir_shows (table is cs) D (fst (sub_top e)) (snd (sub_top e)) sub ks /\
           exists nd', tree_at (TDir sub) s = Some nd' /\ kind_of nd = kind_of nd') /\
      (forall p, ~ at_or_below P p -> look (w_fs w') p = look (w_fs w) p).
Proof.
  intros id D D' bs is is' cs kids E clobber dest w P cfuel HV HPF HNM HB Hb Hlen Hid HD HI HNL HO HC HE Hcf HP HEm HS1 HS2.
  set (o := mkOptions false bs id (2^64 - 1) false). set (m := newIndexMetadata o).
  destruct (open_none bs id Hlen) as (ix0 & HOp). fold o in HOp. fold m in HOp.
  destruct (recon_run id D' bs None (Some [(metadataKey, m)]) ix0 HB Hid HOp) as (b0' & E0 & HRun). injection E0 as <-.
  rewrite (trace_items id D' bs is' HB Hb HI) in HRun. cbn [fst snd] in HRun. destruct (items_wf _ _ _ _ HI) as [W1 W2].
  assert (Op0 : opened [(metadataKey, m)]) by (split; [split; [cbn; auto|repeat constructor]|exists m; left; reflexivity]).
  set (b := fold_left put_ins is' [(metadataKey, m)]) in *.
  assert (Op : opened b) by (apply puts_opened; assumption).
  assert (G : get b metadataKey = Some m) by (unfold b; rewrite PropsReconAny.get_metadata_puts by assumption; apply get_In; [apply Op0|left; reflexivity]).
  change m with (md_record 20190809 (u32 (o_BlockSize o)) (o_FSID o) (o_Generation o)) in G.
  destruct (C25_open_existing ro_options b _ _ _ _ (proj1 Op) G) as [(_ & ix & HX & _ & _ & HG & HT & _)|[HN _]]; [unfold is_u64; lia|apply u32_range|exact Hlen| |].
  2:{ destruct HN. split; [lia|]. split; [right; reflexivity|left; reflexivity]. }
  exists b, ix. split; [exact HRun|]. split; [exact HX|]. split; [exact HT|]. intros rfuel Hr.
  assert (HIV := items_value id D' bs is' HI). assert (HAg : agrees (table is' cs) (ix_queries rfuel b (ix_Generation ix))) by (rewrite HG; change (o_Generation ro_options) with max64; apply table_agrees; assumption).
  set (qi := ix_queries rfuel b (ix_Generation ix)) in *. clearbody qi. clear HRun HX HG HT Op G HOp.
  pose proof (table_misses is is' HNL cs) as HM. set (q := table is cs) in *. set (q' := table is' cs) in *.
  assert (HLd : forall o d e loc, In e (st_items (q_dirItems q' o d)) -> DirItem_Location (snd e) = Ok loc -> fine (ObjectID loc)) by (apply table_leads; assumption).
  assert (HSv : forall e, In e (st_items (q_subvolumes q')) -> fine (ObjectID (ik_Key (fst e)))) by (apply table_subvols; assumption). clearbody q q'.
  destruct (volume_part q q' D D' (fun _ => False) HM HD kids HV HPF HNM) as (kids' & K1 & K2 & K3 & K4).
  assert (HP0 : look (w_fs w) P = Some NDir) by exact (proj1 (proj2 (proj2 (proj2 (proj2 HP))))).
  assert (H0 : forall r nd, look (w_fs w) (P ++ r) = Some nd -> r = [] /\ nd = NDir).
  { intros r nd H. destruct r as [|c r]; [rewrite app_nil_r in H; split; [reflexivity|congruence]|]. rewrite HEm in H; discriminate. }
  assert (HDm : damaged (fun _ => False) D' (file_reader D')) by (destruct (PropsRecoverEx.file_reader_good D') as [A B]; split; [exact A|intros n off H1 H2 H3 _; exact (B n off H1 H2 H3)]).
  assert (KA : volume_lists qi D' kids') by (apply (volume_agree q' qi HAg HLd (listed q' D') (listed qi D')); [exact (listed_agrees q' qi D' HAg)|exact (listed_link_agrees q' qi D' HAg)|exact HSv|exact K1]).
  assert (HRe : forall o d r, reaches q' (untouched q q' D D' (fun _ => False)) o d r -> fine o -> fine d -> reaches qi (complete qi D' (fun _ => False)) o d r).
  { intros o1 d r Hr1. apply (reaches_agree q' qi HAg HLd (complete q' D' (fun _ => False))); [intros; eapply complete_agrees; eassumption|intros; eapply complete_link_agrees; eassumption|].
    apply (reaches_complete q q' D D' (fun _ => False) HM HD). exact Hr1. }
  assert (F256 : fine FirstFreeObjectID) by (unfold fine; change FirstFreeObjectID with 256; lia). assert (F5 : fine FSTreeObjectID) by (unfold fine; change FSTreeObjectID with 5; lia).
  pose proof HAg as (HQ & _ & HQs).
  destruct (C76_incomplete_index_partial cfuel E (file_reader D') D' qi (fun _ => False) clobber dest w P kids' HE HDm (proj2 (proj2 HB)) Hcf KA HP) as (f0 & H).
  - intros r Hr1. destruct (tree_at (TDir kids') r) as [nd|] eqn:EN; [|congruence]. destruct (K2 r nd EN) as [(nd' & A & _)|(e & sub & kk & s & A1 & -> & A3 & nd' & A4 & _)]; [apply HS1; congruence|apply (HS2 e sub kk s A1 A3); congruence].
  - intros r nd Hr1. destruct (H0 r nd Hr1) as [-> ->]. exists NDir. auto.
  - right. intros r nd Hr1. destruct (H0 r nd Hr1) as [-> ->]. reflexivity.
  - exists f0. intros fuel Hfu. destruct (H fuel Hfu) as (w' & v & R1 & R2 & R3 & R4). exists w', v. split; [exact R1|]. split; [|split; [|split; [|exact R4]]].
    + intros r Hr1. rewrite (R2 r); [exact (K3 r Hr1)|]. apply vol_main. apply HRe; assumption.
    + intros e He HOr. destruct (K4 e He HOr) as (sub & kk & A1 & A2). exists sub, kk. split; [exact A1|]. intros r Hr1. rewrite (R2 (made_up e :: r)); [exact (A2 r Hr1)|].
      destruct e as [k d]. apply (vol_extra _ _ k d (made_up (k, d)) r); [rewrite HQs; exact He|reflexivity| |apply HRe; [exact Hr1|exact (HSv _ He)|exact F256]].
      intros k' di HIn. destruct (HQ _ _ F5 F256) as (Q1 & _). rewrite Q1 in HIn. apply (HNM (k, d) k' di); [exact (part_In _ _ _ (proj1 (ms_subs _ _ HM)) _ He)|exact (part_In _ _ _ (proj1 (ms_dirs _ _ HM _ _)) _ HIn)].
    + intros r nd Hr1. destruct (R3 r nd Hr1) as (nd1 & A1 & A2). rewrite A2. exact (K2 r nd1 A1).
Qed.
Print Assumptions C78_damaged_image.
