(** C100: ls on an image whose blocks are of different generations. *)
From Verif Require Import Go GoProofs Layout LayoutProofs SpecLayout StructProofs PropsLayout KeyFmt KeyProofs Bolt Store StoreProofs SpecStore RangeProofs Session PropsSession IoUtil Recon ReconCmd PropsRecon PropsReconEx RangeItems.
From Verif Require Import PropsPath ToString Crc PropsCrc Path PathProofs Fs Recover SpecFs SpecContent SpecTree SpecDisk DiskProofs PropsDisk Rescue PropsRescueNode Ls PropsLs PropsLsEx PropsLsDisk SpecGen GenProofs PropsGen.
From Verif Require PropsRecoverDfs PropsReconAny.
From Coq Require Import List Permutation ZifyBool ZifyNat ZifyN.
Ltac Zify.zify_post_hook ::= Z.div_mod_to_equations.

(** [recent dir]: the entries of a directory in their newest versions; [listed dir]: the entries that ls lists (C95) *)
Section Spec.
  Variables recent listed : Z -> list d_dir_item.
  (** a name leads to the newest version of its entry, or else to the entry listed under that name *)
  Definition leads_by (dir : Z) (c : list byte) : option d_dir_item :=
    match named recent dir c with Some d => Some d | None => named listed dir c end.
  Fixpoint entry_by (dir : Z) (comps : list (list byte)) : option d_dir_item :=
    match comps with
    | [] => None
    | [c] => leads_by dir c
    | c :: rest => match leads_by dir c with Some d => if is_dir d then entry_by (target d) rest else None | None => None end
    end.
  Definition path_by (p : list byte) : option d_dir_item := entry_by 256 (Split (TrimLeft p)).
  (** names occur once among the entries listed, what is not a directory has no entries, and there are no subvolumes *)
  Definition plain_volume : Prop := forall dir, NoDup (map di_name (listed dir)) /\
    forall d, In d (recent dir) \/ In d (listed dir) -> k_type (di_location d) <> 132 /\ (is_dir d = false -> recent (target d) = []).
End Spec.
(** every entry is stored under the hash of its name *)
Definition hashed (is : list insertion) (recent : Z -> list d_dir_item) : Prop := forall dir,
  Forall2 (fun i d => item_for (sl (i_data i)) d /\ KOffset (i_key i) = NameHash (di_name d)) (group is 5 84 dir) (recent dir).

Lemma tree_key_unique is o i j : In i (tree_items is o) -> In j (tree_items is o) -> i_key i = i_key j -> i = j.
Proof. intros Hi Hj E. pose proof (newest_version is o i Hi) as A. pose proof (newest_version is o j Hj) as B.
  assert (G : i_gen i = i_gen j).
  { destruct (tree_newest is o i Hi) as (Oi & a & c & -> & A1 & A2). destruct (tree_newest (a ++ i :: c) o j Hj) as (Oj & a' & c' & E' & B1 & B2).
    assert (Hj' : In j (a ++ i :: c)) by (rewrite E'; apply in_or_app; right; left; reflexivity). assert (Hi' : In i (a' ++ j :: c')) by (rewrite <- E'; apply in_or_app; right; left; reflexivity).
    assert (i_gen j <= i_gen i) by (apply in_app_or in Hj' as [H|[<-|H]]; [apply A1; [exact H|exact Oj|congruence]|lia|specialize (A2 j H Oj (eq_sym E)); lia]).
    assert (i_gen i <= i_gen j) by (apply in_app_or in Hi' as [H'|[<-|H']]; [apply B1; [exact H'|exact Oi|congruence]|lia|specialize (B2 i H' Oi E); lia]). lia. }
  rewrite E, G in A. congruence.
Qed.
(** ** looking a path up in the index that recon writes *)
Section Lookup.
  Variables (is : list insertion) (m : list byte) (cs : list (Z * d_chunk)) (recent listed : Z -> list d_dir_item) (fuel : nat).
  Let b := fold_left put_ins is [(metadataKey, m)].
  Hypothesis HW : Forall wf_ins is.
  Hypothesis HV : forall i, In i is -> i_owner i < max64 /\ insert_value (i_item i) (i_data i) = i_item i ++ i_data i /\ valueData (i_item i ++ i_data i) = Ok (sl (i_data i)).
  Hypothesis HD : separated is.
  Hypothesis HF : (length b + 1 < fuel)%nat.
  Hypothesis HC : forall d, dir_holds (seen is cs) 5 d (listed d).
  Hypothesis HH : hashed is recent.
  Hypothesis HT : plain_volume recent listed.
  Lemma comp_found dir comp last : fine dir ->
    match leads_by recent listed dir comp with
    | Some d => (last || is_dir d = true -> exists s, find_comp fuel b max64 5 dir comp last = Ok (Some s) /\ item_for s d) /\
                (find_comp fuel b max64 5 dir comp last = Ok None \/ exists s, find_comp fuel b max64 5 dir comp last = Ok (Some s) /\ item_for s d)
    | None => find_comp fuel b max64 5 dir comp last = Ok None
    end.
  Proof.
    intros [Hd1 Hd2]. assert (Ud : is_u64 dir) by (unfold is_u64; lia).
    assert (HV' : forall i, In i is -> insert_value (i_item i) (i_data i) = i_item i ++ i_data i /\ valueData (i_item i ++ i_data i) = Ok (sl (i_data i))) by (intros i Hi; apply HV; exact Hi).
    assert (HO' : forall i, In i is -> i_owner i < max64) by (intros i Hi; apply HV; exact Hi).
    assert (U5 : is_u64 5) by (unfold is_u64; lia). assert (M5 : 5 < max64) by (unfold max64; lia).
    assert (Hh : is_u64 (NameHash comp)) by (pose proof (C31_fits comp); unfold is_u64, is_u32 in *; lia).
    assert (Wk : wf_Key (mkKey dir 84 (NameHash comp))) by (unfold wf_Key; cbn [ObjectID KType KOffset]; split; [exact Ud|split; [unfold is_u8; lia|exact Hh]]).
    pose proof (find_at is m HW HV' HO' 5 (mkKey dir 84 (NameHash comp)) M5 U5 Wk) as EF. fold b in EF.
    pose proof (group_seen is m HW HV' HO' HD 5 84 dir fuel M5 U5 Ud (or_introl eq_refl) HF) as EG. fold b in EG.
    destruct (HC dir) as [_ H2]. cbn [seen q_dirItems st_items] in H2.
    unfold find_comp. change (KF3 DirItemKey dir (NameHash comp)) with (mkKey dir 84 (NameHash comp)). unfold DirItems. change DirItemKey with 84.
    rewrite (range_for_items _ _ _ _ EG).
    assert (Slow : match named listed dir comp with
      | Some d => (last || is_dir d = true -> exists s, fold_items (slow_body comp last) (map row (seen_group is 5 84 dir)) None = Ok (Some s) /\ item_for s d) /\
                  (fold_items (slow_body comp last) (map row (seen_group is 5 84 dir)) None = Ok None \/ exists s, fold_items (slow_body comp last) (map row (seen_group is 5 84 dir)) None = Ok (Some s) /\ item_for s d)
      | None => fold_items (slow_body comp last) (map row (seen_group is 5 84 dir)) None = Ok None end).
    { clear EF EG. unfold named. destruct (HT dir) as [ND _]. induction H2 as [|[k s] d l ds [A1 A2] H2 IH]; [reflexivity|]. cbn [map List.find fold_items] in *. cbn [snd] in A1. inversion ND as [|? ? Hn ND']; subst.
      destruct (PropsPath.entry_acc s d A1 A2) as (En & Ed & _). unfold slow_body at 1 3 5 7. rewrite En. cbn [rbind]. destruct (bytes_eqb (di_name d) comp) eqn:Eb.
      - rewrite Ed. cbn [rbind]. change (di_type d =? 2) with (is_dir d). destruct (is_dir d || last) eqn:Eo.
        + cbn [rbind]. split; [intros _|right]; exists s; (split; [reflexivity|split; assumption]).
        + cbn [rbind]. split; [intros H; rewrite orb_comm in H; congruence|]. left. apply bytes_eqb_eq in Eb. specialize (IH ND').
          destruct (List.find (fun d0 => bytes_eqb (di_name d0) comp) ds) as [d'|] eqn:E'; [|exact IH]. apply find_some in E' as [Hin E']. apply bytes_eqb_eq in E'. destruct Hn. rewrite Eb, <- E'. apply in_map. exact Hin.
      - cbn [rbind]. exact (IH ND'). }
    (* what the newest versions say *)
    assert (HNew : forall d, named recent dir comp = Some d -> exists i, item_at is 5 (mkKey dir 84 (NameHash comp)) = Some i /\ item_for (sl (i_data i)) d).
    { intros d E. apply find_some in E as [Hd E]. apply bytes_eqb_eq in E. destruct (DiskProofs.Forall2_in_r _ _ _ (HH dir) d Hd) as (i & Hi & HI & HK). rewrite E in HK.
      apply filter_In in Hi as [Hi Hk]. cbv beta in Hk. assert (EK : i_key i = mkKey dir 84 (NameHash comp)) by (destruct (i_key i) as [k1 k2 k3]; cbn [ObjectID KType KOffset] in *; f_equal; lia).
      exists i. split; [|exact HI]. unfold item_at. destruct (List.find (fun i0 => same_keyb (i_key i0) (mkKey dir 84 (NameHash comp))) (tree_items is 5)) as [j|] eqn:EJ.
      - apply find_some in EJ as [Hj EJ]. apply same_keyb_eq in EJ. f_equal. apply (tree_key_unique is 5); [exact Hj|exact Hi|congruence].
      - exfalso. pose proof (find_none _ _ EJ i Hi) as X. cbv beta in X. rewrite EK in X. rewrite (proj2 (same_keyb_eq _ _) eq_refl) in X. discriminate. }
    assert (Fallback : (forall d, named recent dir comp <> Some d) -> leads_by recent listed dir comp = named listed dir comp) by (intros H; unfold leads_by; destruct (named recent dir comp) as [d|]; [destruct (H d eq_refl)|reflexivity]).
    unfold item_data in EF.
    destruct (FindItem b max64 5 (mkKey dir 84 (NameHash comp))) as [[v|]| |]; cbn [rbind item_data_opt] in EF |- *; try discriminate.
    2:{ rewrite Fallback; [exact Slow|]. intros d E. destruct (HNew d E) as (i & Ei & _). rewrite Ei in EF. discriminate EF. }
    destruct (valueData v) as [d| |]; cbn [rbind] in EF |- *; try discriminate.
    destruct (item_at is 5 (mkKey dir 84 (NameHash comp))) as [i|] eqn:EI; cbn [option_map] in EF; [|discriminate]. assert (d = sl (i_data i)) by congruence. subst d.
    assert (Hi : exists d, In d (recent dir) /\ item_for (sl (i_data i)) d).
    { pose proof EI as EI'. unfold item_at in EI'. apply find_some in EI' as [Hi E]. apply same_keyb_eq in E. assert (Hg : In i (group is 5 84 dir)) by (apply filter_In; split; [exact Hi|rewrite E; cbn [KType ObjectID]; lia]).
      destruct (Forall2_In_l _ _ _ (HH dir) _ Hg) as (d & Hd & HI & _). exists d. split; [exact Hd|exact HI]. }
    destruct Hi as (d & Hin & HI). destruct (PropsPath.entry_acc _ d (proj1 HI) (proj2 HI)) as (En & _). rewrite En. cbn [rbind].
    destruct (bytes_eqb (di_name d) comp) eqn:Eb.
    - unfold leads_by. destruct (named recent dir comp) as [d'|] eqn:EN; [|pose proof (find_none _ _ EN d Hin) as X; cbv beta in X; congruence].
      destruct (HNew d' eq_refl) as (i' & Ei & HI'). assert (i' = i) by congruence. subst i'. split; [intros _|right]; exists (sl (i_data i)); auto.
    - rewrite Fallback; [exact Slow|]. intros d' E. destruct (HNew d' E) as (i' & Ei & HI'). assert (i' = i) by congruence. subst i'. destruct (PropsPath.entry_acc _ d' (proj1 HI') (proj2 HI')) as (En' & _).
      apply find_some in E as [_ E]. assert (di_name d' = di_name d) by congruence. congruence.
  Qed.
  Lemma recent_fine dir d : In d (recent dir) \/ In d (listed dir) -> fine (target d).
  Proof.
    intros [Hd|Hd].
    - destruct (DiskProofs.Forall2_in_r _ _ _ (HH dir) d Hd) as (i & Hi & HI & _). apply filter_In in Hi as [Hi Hk]. cbv beta in Hk. destruct (tree_in is i 5 Hi) as [Hi' _].
      destruct (item_type _ _ HI) as (_ & _ & loc & L & LO & _). unfold target. rewrite <- LO. split; [rewrite LO; destruct HI as [(_ & F & _) _]; inversion F as [|? ? F1 _]; cbn in F1; lia|]. apply (proj1 HD i loc Hi'); [lia|exact L].
    - destruct (HC dir) as [_ H2]. destruct (DiskProofs.Forall2_in_r _ _ _ H2 d Hd) as (e & He & HI). destruct (item_type _ _ HI) as (_ & _ & loc & L & LO & _). unfold target. rewrite <- LO. refine (seen_leads is cs HV HD 5 dir e loc He L).
  Qed.
  Lemma leads_in dir c d : leads_by recent listed dir c = Some d -> In d (recent dir) \/ In d (listed dir).
  Proof. unfold leads_by. destruct (named recent dir c) as [x|] eqn:E; intros H; [assert (x = d) by congruence; subst; left; apply find_some in E; apply E|right; apply find_some in H; apply H]. Qed.
  Lemma recent_nil dir : recent dir = [] -> listed dir = [].
  Proof.
    intros E. pose proof (HH dir) as H. rewrite E in H. inversion H as [E1|]. destruct (HC dir) as [_ H2]. cbn [seen q_dirItems st_items] in H2. unfold seen_group in H2. rewrite <- E1 in H2. inversion H2. reflexivity.
  Qed.
  Lemma comp_empty dir comp last : fine dir -> recent dir = [] -> find_comp fuel b max64 5 dir comp last = Ok None.
  Proof. intros Fd E. pose proof (comp_found dir comp last Fd) as H. unfold leads_by, named in H. rewrite E, (recent_nil dir E) in H. exact H. Qed.
  Lemma path_found comps : comps <> [] -> forall dir r0, fine dir ->
    match entry_by recent listed dir comps with Some d => exists s, path_loop fuel b max64 5 dir comps r0 = Ok (Some s) /\ item_for s d | None => path_loop fuel b max64 5 dir comps r0 = Ok None end.
  Proof.
    induction comps as [|c rest IH]; [congruence|]. intros _ dir r0 Fd. cbn [path_loop].
    pose proof (comp_found dir c (match rest with [] => true | _ => false end) Fd) as HX.
    assert (E : entry_by recent listed dir (c :: rest) = match rest with [] => leads_by recent listed dir c | _ => match leads_by recent listed dir c with Some d => if is_dir d then entry_by recent listed (target d) rest else None | None => None end end) by (destruct rest; reflexivity).
    rewrite E. clear E. destruct (leads_by recent listed dir c) as [d|] eqn:EN; [|rewrite HX; cbn [rbind]; destruct rest; reflexivity].
    pose proof (leads_in _ _ _ EN) as Hin. destruct (proj2 (HT dir) d Hin) as [NS NC]. pose proof (recent_fine dir d Hin) as Ft.
    assert (Go1 : forall s, item_for s d -> DirItem_IsSubvolume s = Ok false /\ exists loc, DirItem_Location s = Ok loc /\ ObjectID loc = target d).
    { intros s [A1 A2]. destruct (PropsPath.entry_acc s d A1 A2) as (_ & _ & Es & t & f & El). split; [rewrite Es; f_equal; lia|]. eexists. split; [exact El|reflexivity]. }
    destruct HX as [HX1 HX2]. destruct rest as [|c2 rest].
    - destruct HX1 as (s & -> & HI); [reflexivity|]. cbn [rbind]. destruct (Go1 s HI) as (-> & loc & -> & _). cbn [rbind path_loop]. exists s. auto.
    - destruct (is_dir d) eqn:ED.
      + destruct HX1 as (s & -> & HI); [reflexivity|]. cbn [rbind]. destruct (Go1 s HI) as (-> & loc & -> & EL). cbn [rbind]. rewrite EL. apply IH; [discriminate|exact Ft].
      + destruct HX2 as [->|(s & -> & HI)]; [reflexivity|]. cbn [rbind]. destruct (Go1 s HI) as (-> & loc & -> & EL). cbn [rbind]. rewrite EL.
        cbn [path_loop]. rewrite (comp_empty (target d) c2 _ Ft (NC eq_refl)). reflexivity.
  Qed.
  Lemma path_finds : finds (FindDirItemForPath fuel b max64) (path_by recent listed).
  Proof.
    intros p. unfold path_by, FindDirItemForPath. change FirstFreeObjectID with 256. apply path_found; [|unfold fine; lia].
    induction (TrimLeft p) as [|x l IH]; cbn [Split]; [discriminate|]. destruct (beqb x slash); [discriminate|]. destruct (Split l); discriminate.
  Qed.
  Lemma entry_fine comps : forall dir d, entry_by recent listed dir comps = Some d -> fine (target d).
  Proof.
    induction comps as [|c rest IH]; intros dir d H; [discriminate|].
    assert (HN : forall d, leads_by recent listed dir c = Some d -> fine (target d)) by (intros d' EN; exact (recent_fine dir d' (leads_in _ _ _ EN))).
    cbn [entry_by] in H. destruct rest as [|c2 rest]; [exact (HN d H)|]. destruct (leads_by recent listed dir c) as [d0|]; [|discriminate]. destruct (is_dir d0); [|discriminate]. exact (IH _ _ H).
  Qed.
  Lemma path_leads p di : FindDirItemForPath fuel b max64 5 p = Ok (Some di) -> lead di.
  Proof.
    intros H. pose proof (path_finds p) as HX. destruct (path_by recent listed p) as [d|] eqn:E; [|congruence]. destruct HX as (s & E' & HI). assert (di = s) by congruence. subst s.
    intros loc Hloc. destruct (item_type _ _ HI) as (_ & _ & loc' & L & LO & _). assert (loc' = loc) by congruence. subst loc'. rewrite LO. exact (entry_fine _ _ _ E).
  Qed.
End Lookup.

(** C100.  Scan an image, then ls: directories show the entries seen, paths are followed through the newest versions
    first. *)
Theorem C100_ls : forall id D bs is cs recent listed inodes,
  big_enough D bs -> 101 <= bs -> length id = 16%nat -> id <> repeat x00 16 ->
  image_items id D bs is -> separated is -> seen_chunks is cs ->
  (forall d, dir_holds (seen is cs) 5 d (listed d)) -> inodes_are (seen is cs) 5 inodes -> hashed is recent -> plain_volume recent listed ->
  exists b ix,
    doScanFS true true PropsRecon.no_faults (file_dev D) bs id None = (Some b, XOk) /\
    OpenReadOnly (Some b) = Ok (Some b, Some ix) /\ ix_tx ix = Some (mkTx false b) /\
    forall rfuel, (length b + 1 < rfuel)%nat -> forall st sort recursive show args, sorter sort ->
    let what := map (shown_for (path_by recent listed)) (match args with [] => [root_path] | _ => args end) in
    (recursive = true -> forall d, In d (flat_map dir_of what) -> Acc (subdir listed) d) ->
    exists fuel0 texts, Forall2 (ls_text st inodes show listed recursive) (flat_map dir_of what) texts /\ forall fuel, (fuel0 <= fuel)%nat ->
      doListFiles st sort (FindDirItemForPath rfuel b (ix_Generation ix)) fuel (ix_queries rfuel b (ix_Generation ix)) recursive show args =
      Ok (concat (map (ls_line st inodes show) (flat_map one_of what)), flat_map missing_of what, concat texts).
Proof.
  intros id D bs is cs recent listed inodes HB Hb Hlen Hid HI HD HC Hcon Hino HH HT.
  set (o := mkOptions false bs id (2^64 - 1) false). set (m := newIndexMetadata o).
  destruct (open_none bs id Hlen) as (ix0 & HO). fold o in HO. fold m in HO.
  destruct (recon_run id D bs None (Some [(metadataKey, m)]) ix0 HB Hid HO) as (b0' & E0 & HRun). injection E0 as <-.
  rewrite (trace_items id D bs is HB Hb HI) in HRun. cbn [fst snd] in HRun. destruct (items_wf _ _ _ _ HI) as [W1 W2].
  assert (Op0 : opened [(metadataKey, m)]) by (split; [split; [cbn; auto|repeat constructor]|exists m; left; reflexivity]).
  set (b := fold_left put_ins is [(metadataKey, m)]) in *.
  assert (Op : opened b) by (apply puts_opened; assumption).
  assert (G : get b metadataKey = Some m) by (unfold b; rewrite PropsReconAny.get_metadata_puts by assumption; apply get_In; [apply Op0|left; reflexivity]).
  change m with (md_record 20190809 (u32 (o_BlockSize o)) (o_FSID o) (o_Generation o)) in G.
  destruct (C25_open_existing ro_options b _ _ _ _ (proj1 Op) G) as [(_ & ix & HX & _ & _ & HG & HTx & _)|[HN _]]; [unfold is_u64; lia|apply u32_range|exact Hlen| |].
  2:{ destruct HN. split; [lia|]. split; [right; reflexivity|left; reflexivity]. }
  exists b, ix. split; [exact HRun|]. split; [exact HX|]. split; [exact HTx|]. intros rfuel Hr st sort recursive show args HS what HAcc. rewrite HG. change (o_Generation ro_options) with max64.
  assert (HIV := items_value id D bs is HI). assert (HAg : agrees (seen is cs) (ix_queries rfuel b max64)) by (apply seen_agrees; assumption).
  assert (HLd : forall o d e loc, In e (st_items (q_dirItems (seen is cs) o d)) -> DirItem_Location (snd e) = Ok loc -> fine (ObjectID loc)) by (intros; eapply seen_leads; eassumption).
  destruct (C65_arguments_partial st sort (FindDirItemForPath rfuel b max64) (path_by recent listed) (seen is cs) inodes listed recursive show args HS) as (f0 & texts & HTx' & HR); try assumption.
  { apply (path_finds is m cs recent listed rfuel W1 HIV HD Hr Hcon HH HT). }
  exists f0, texts. split; [exact HTx'|]. intros fuel Hfuel. rewrite (ls_same (seen is cs) _ listed st sort HAg HLd HS Hcon).
  - apply HR. exact Hfuel.
  - intros p di. apply (path_leads is m cs recent listed rfuel W1 HIV HD Hr Hcon HH HT).
Qed.
Print Assumptions C100_ls.
