(** C71: recon and then ls, from the bytes of the image to the text. *)
From Verif Require Import Go GoProofs Layout LayoutProofs SpecLayout StructProofs PropsLayout KeyFmt KeyProofs Bolt Store StoreProofs SpecStore RangeProofs PropsStore PropsRange MkIndex Session PropsSession IoUtil Recon PropsRecon PropsReconEx Crc PropsCrc RangeItems Path.
From Verif Require Import Fs Recover SpecFs SpecContent SpecTree SpecDisk DiskProofs PropsRescueNode ToString Ls PropsLs PropsLsEx PropsDisk.
From Verif Require PropsPath.
From Coq Require Import List Permutation ZifyBool ZifyNat ZifyN.

(** ** specification: the item a path leads to *)
(** [contents d]: the items of directory [d] *)
Definition named (contents : Z -> list d_dir_item) (dir : Z) (c : list byte) : option d_dir_item := List.find (fun d => bytes_eqb (di_name d) c) (contents dir).
Fixpoint entry_at (contents : Z -> list d_dir_item) (dir : Z) (comps : list (list byte)) : option d_dir_item :=
  match comps with
  | [] => None
  | [c] => named contents dir c
  | c :: rest => match named contents dir c with Some d => if is_dir d then entry_at contents (target d) rest else None | None => None end
  end.
(** from the root directory 256; leading slashes do not matter *)
Definition path_entry (contents : Z -> list d_dir_item) (p : list byte) : option d_dir_item := entry_at contents 256 (Split (TrimLeft p)).
(** names occur once in a directory, what is not a directory has no entries, and there are no subvolumes *)
Definition plain_tree (contents : Z -> list d_dir_item) : Prop := forall dir,
  NoDup (map di_name (contents dir)) /\ forall d, In d (contents dir) -> k_type (di_location d) <> 132 /\ (is_dir d = false -> contents (target d) = []).

(** ** where names are distinct, only one text will do *)
Lemma sorted_unique : forall l1 l2, Permutation l1 l2 -> NoDup (map di_name l1) -> ls_sorted l1 -> ls_sorted l2 -> l1 = l2.
Proof.
  destruct C60_strict_weak_order as (_ & _ & O3). induction l1 as [|a l1 IH]; intros l2 HP HN S1 S2; [apply Permutation_nil in HP; congruence|].
  destruct l2 as [|b l2]; [apply Permutation_sym, Permutation_nil in HP; discriminate|]. inversion HN as [|? ? Hn HN']; subst. inversion S1 as [|? ? S1' F1]; subst. inversion S2 as [|? ? S2' F2]; subst. rewrite Forall_forall in F1, F2.
  assert (E : a = b).
  { assert (Hb : In b (a :: l1)) by (apply (Permutation_in _ (Permutation_sym HP)); left; reflexivity). assert (Ha : In a (b :: l2)) by (apply (Permutation_in _ HP); left; reflexivity).
    destruct Hb as [Hb|Hb]; [exact Hb|]. destruct Ha as [Ha|Ha]; [congruence|]. destruct (O3 a b) as [H|[[_ H]|H]]; [destruct (F2 a Ha H)| |destruct (F1 b Hb H)].
    destruct Hn. rewrite H. apply in_map. exact Hb. }
  subst b. f_equal. apply IH; try assumption. apply Permutation_cons_inv in HP. exact HP.
Qed.
Theorem C61_text_unique st inodes show contents : (forall dir, NoDup (map di_name (contents dir))) ->
  forall rec dir t1 t2, ls_text st inodes show contents rec dir t1 -> ls_text st inodes show contents rec dir t2 -> t1 = t2.
Proof.
  intros HN. fix IH 5. intros rec dir t1 t2 H1 H2. destruct H1 as [rec dir ds subs P1 S1 F1]. inversion H2 as [? ? ds2 subs2 P2 S2 F2]; subst.
  assert (E : ds = ds2) by (apply sorted_unique; [exact (perm_trans (Permutation_sym P1) P2)|refine (Permutation_NoDup (Permutation_map di_name P1) (HN dir))|assumption|assumption]). subst ds2. f_equal. f_equal. f_equal. f_equal.
  clear H2. revert subs2 F2. induction F1 as [|d t l ts Ht F1 IHF]; intros subs2 F2; inversion F2 as [|? t' ? ts' Ht' F2']; subst; [reflexivity|]. f_equal; [exact (IH _ _ _ _ Ht Ht')|exact (IHF _ F2')].
Qed.
Print Assumptions C61_text_unique.

(** ** ls does not see a difference between an index and what it answers like *)
Section Agree.
  Variables (q q' : queries) (contents : Z -> list d_dir_item) (st : Z * Z -> list byte) (sort : list slice -> Res (list slice)).
  Hypothesis HA : agrees q q'.
  Hypothesis HL : forall o d e loc, In e (st_items (q_dirItems q o d)) -> DirItem_Location (snd e) = Ok loc -> fine (ObjectID loc).
  Hypothesis HS : sorter sort.
  Hypothesis HC : forall d, dir_holds q 5 d (contents d).
  Lemma fine5 : fine 5. Proof. unfold fine; lia. Qed.
  Definition lead (di : slice) : Prop := forall loc, DirItem_Location di = Ok loc -> fine (ObjectID loc).
  Lemma item_same di show : lead di -> listDirItem st q' 5 di show = listDirItem st q 5 di show.
  Proof using HA.
    intros Hd. unfold listDirItem. destruct (DirItem_Location di) as [loc| |] eqn:E; cbn [rbind]; try reflexivity. destruct (proj1 HA 5 (ObjectID loc) fine5 (Hd loc E)) as (_ & -> & _). reflexivity.
  Qed.
  Lemma items_same rec show l : (forall di, In di l -> lead di) -> list_items st q' 5 rec show l = list_items st q 5 rec show l.
  Proof using HA.
    induction l as [|di l IH]; intros H; [reflexivity|]. cbn [list_items]. rewrite item_same by (apply H; left; reflexivity). rewrite IH by (intros x Hx; apply H; right; exact Hx). reflexivity.
  Qed.
  Lemma items_todo rec show l text todo : list_items st q 5 rec show l = Ok (text, todo) -> forall x, In x todo -> In x l.
  Proof using.
    revert text todo. induction l as [|di l IH]; intros text todo H x Hx; cbn [list_items] in H; [assert (todo = []) by congruence; subst; destruct Hx|].
    destruct (listDirItem st q 5 di show) as [line| |]; cbn [rbind] in H; try discriminate. destruct (if rec then DirItem_IsDir di else Ok false) as [isd| |]; cbn [rbind] in H; try discriminate.
    destruct (list_items st q 5 rec show l) as [[t td]| |]; cbn [rbind] in H; try discriminate. assert (E : todo = if isd then di :: td else td) by congruence. subst todo.
    destruct isd; [destruct Hx as [<-|Hx]; [left; reflexivity|]|]; right; exact (IH t td eq_refl x Hx).
  Qed.
  Lemma todo_same f f' l : (forall d, fine d -> f' d = f d) -> (forall di, In di l -> lead di) -> list_todo f' l = list_todo f l.
  Proof using.
    intros Hf. induction l as [|di l IH]; intros H; [reflexivity|]. cbn [list_todo]. destruct (DirItem_Name di) as [n| |]; cbn [rbind]; try reflexivity. destruct (DirItem_Location di) as [loc| |] eqn:E; cbn [rbind]; try reflexivity.
    rewrite Hf by (apply (H di (or_introl eq_refl)); exact E). rewrite IH by (intros x Hx; apply H; right; exact Hx). reflexivity.
  Qed.
  Lemma dir_same show : forall fuel rec d, fine d -> listDirectory st sort fuel q' 5 d rec show = listDirectory st sort fuel q 5 d rec show.
  Proof using HA HL HS HC.
    induction fuel as [|fuel IH]; intros rec d Fd; [reflexivity|]. cbn [listDirectory]. destruct (proj1 HA 5 d fine5 Fd) as (-> & _). destruct (HC d) as [HE HF]. rewrite HE. cbn [rbind].
    assert (HF' : Forall2 item_for (map snd (st_items (q_dirItems q 5 d))) (contents d)) by (clear -HF; induction HF; cbn [map]; constructor; assumption).
    destruct (HS _ (less_ok_items _ _ HF')) as (l' & -> & HP & _). cbn [rbind].
    assert (Hl : forall di, In di l' -> lead di).
    { intros di Hd loc Hloc. apply (Permutation_in _ (Permutation_sym HP)) in Hd. apply in_map_iff in Hd as (e & <- & He). exact (HL 5 d e loc He Hloc). }
    rewrite (items_same rec show l' Hl). destruct (list_items st q 5 rec show l') as [[text todo]| |] eqn:EI; cbn [rbind]; try reflexivity.
    rewrite (todo_same (fun d => listDirectory st sort fuel q 5 d true show)); [reflexivity|intros d' Fd'; apply IH; exact Fd'|].
    intros di Hd. apply Hl. exact (items_todo _ _ _ _ _ EI di Hd).
  Qed.
  Lemma dirs_same fuel rec show l : (forall d, In d l -> fine d) -> list_dirs st sort fuel q' rec show l = list_dirs st sort fuel q rec show l.
  Proof using HA HL HS HC.
    induction l as [|d l IH]; intros H; [reflexivity|]. cbn [list_dirs]. change FSTreeObjectID with 5. rewrite dir_same by (apply H; left; reflexivity). rewrite IH by (intros x Hx; apply H; right; exact Hx). reflexivity.
  Qed.
  Variable find : Z -> list byte -> Res (option slice).
  Hypothesis HFd : forall p di, find 5 p = Ok (Some di) -> lead di.
  Lemma args_same show args : list_args st find q' show args = list_args st find q show args /\
    forall t w todo, list_args st find q show args = Ok (t, w, todo) -> forall d, In d todo -> fine d.
  Proof using HA HFd.
    induction args as [|p args [IH1 IH2]]; [split; [reflexivity|intros t w todo E d Hd; cbn [list_args] in E; assert (todo = []) by congruence; subst; destruct Hd]|].
    cbn [list_args]. cbv zeta. destruct (bytes_eqb (Clean p) [slash]).
    - rewrite IH1. split; [reflexivity|]. destruct (list_args st find q show args) as [[[t1 w1] td1]| |]; cbn [rbind]; intros t w todo E d Hd; try discriminate.
      assert (todo = FirstFreeObjectID :: td1) by congruence. subst todo. destruct Hd as [<-|Hd]; [unfold fine; change FirstFreeObjectID with 256; lia|exact (IH2 _ _ _ eq_refl d Hd)].
    - change FSTreeObjectID with 5. destruct (find 5 (Clean p)) as [[di|]| |] eqn:EF; cbn [rbind]; try (split; [reflexivity|discriminate]).
      + pose proof (HFd _ _ EF) as Ld. destruct (DirItem_IsDir di) as [[|]| |]; cbn [rbind]; try (split; [reflexivity|discriminate]).
        * rewrite IH1. split; [reflexivity|]. destruct (DirItem_Location di) as [loc| |] eqn:EL; cbn [rbind]; try discriminate. destruct (list_args st find q show args) as [[[t1 w1] td1]| |]; cbn [rbind]; intros t w todo E d Hd; try discriminate.
          assert (todo = ObjectID loc :: td1) by congruence. subst todo. destruct Hd as [<-|Hd]; [exact (Ld loc EL)|exact (IH2 _ _ _ eq_refl d Hd)].
        * rewrite IH1, (item_same di show Ld). split; [reflexivity|]. destruct (listDirItem st q 5 di show); cbn [rbind]; try discriminate. destruct (list_args st find q show args) as [[[t1 w1] td1]| |]; cbn [rbind]; intros t w todo E d Hd; try discriminate.
          assert (todo = td1) by congruence. subst todo. exact (IH2 _ _ _ eq_refl d Hd).
      + rewrite IH1. split; [reflexivity|]. destruct (list_args st find q show args) as [[[t1 w1] td1]| |]; cbn [rbind]; intros t w todo E d Hd; try discriminate.
        assert (todo = td1) by congruence. subst todo. exact (IH2 _ _ _ eq_refl d Hd).
  Qed.
  Lemma ls_same fuel rec show args : doListFiles st sort find fuel q' rec show args = doListFiles st sort find fuel q rec show args.
  Proof using HA HL HS HC HFd.
    unfold doListFiles. cbv zeta. destruct (args_same show (match args with [] => [[slash]] | _ => args end)) as [E1 E2]. rewrite E1.
    destruct (list_args st find q show _) as [[[t w] todo]| |]; cbn [rbind]; try reflexivity. rewrite dirs_same by (intros d Hd; exact (E2 _ _ _ eq_refl d Hd)). reflexivity.
  Qed.
End Agree.

(** ** looking a path up in the index that recon writes *)
Section Lookup.
  Variables (is : list insertion) (m : list byte) (cs : list (Z * d_chunk)) (contents : Z -> list d_dir_item) (fuel : nat).
  Let b := fold_left put_ins is [(metadataKey, m)].
  Hypothesis HW : Forall wf_ins is.
  Hypothesis HV : forall i, In i is -> i_owner i < max64 /\ insert_value (i_item i) (i_data i) = i_item i ++ i_data i /\ valueData (i_item i ++ i_data i) = Ok (sl (i_data i)).
  Hypothesis HD : orderly is.
  Hypothesis HF : (length b + 1 < fuel)%nat.
  Hypothesis HC : forall d, dir_holds (table is cs) 5 d (contents d).
  Hypothesis HT : plain_tree contents.
  Lemma named_in dir d : In d (contents dir) -> named contents dir (di_name d) = Some d.
  Proof using HT.
    intros Hd. unfold named. destruct (HT dir) as [ND _]. induction (contents dir) as [|x l IH]; [destruct Hd|]. cbn [List.find map] in *. inversion ND as [|? ? Hn ND']; subst.
    destruct Hd as [->|Hd]; [rewrite bytes_eqb_refl; reflexivity|]. destruct (bytes_eqb (di_name x) (di_name d)) eqn:E; [|apply IH; assumption].
    apply bytes_eqb_eq in E. destruct Hn. rewrite E. apply in_map. exact Hd.
  Qed.
  Lemma comp_found dir comp last : fine dir ->
    match named contents dir comp with
    | Some d => (last || is_dir d = true -> exists s, find_comp fuel b max64 5 dir comp last = Ok (Some s) /\ item_for s d) /\
                (find_comp fuel b max64 5 dir comp last = Ok None \/ exists s, find_comp fuel b max64 5 dir comp last = Ok (Some s) /\ item_for s d)
    | None => find_comp fuel b max64 5 dir comp last = Ok None
    end.
  Proof.
    intros [Hd1 Hd2]. assert (Ud : is_u64 dir) by (unfold is_u64; lia).
    assert (HV' : forall i, In i is -> insert_value (i_item i) (i_data i) = i_item i ++ i_data i /\ valueData (i_item i ++ i_data i) = Ok (sl (i_data i))) by (intros i Hi; apply HV; exact Hi).
    assert (HO' : forall i, In i is -> i_owner i < max64) by (intros i Hi; apply HV; exact Hi).
    assert (U5 : is_u64 5) by (unfold is_u64; lia). assert (M5 : 5 < max64) by (unfold max64; lia).
    assert (Hh : is_u64 (NameHash comp)) by (pose proof (C31_fits comp); unfold is_u64, is_u32 in *; lia).
    assert (Wk : wf_Key (mkKey dir 84 (NameHash comp))) by (unfold wf_Key; cbn [ObjectID KType KOffset]; split; [exact Ud|split; [unfold is_u8; lia|exact Hh]]).
    pose proof (find_at is m HW HV' HO' 5 (mkKey dir 84 (NameHash comp)) M5 U5 Wk) as EF. fold b in EF.
    pose proof (group_rows is m HW HV' HO' HD 5 84 dir fuel M5 U5 Ud (or_introl eq_refl) HF) as EG. fold b in EG.
    destruct (HC dir) as [_ H2]. cbn [table q_dirItems st_items] in H2.
    unfold find_comp. change (KF3 DirItemKey dir (NameHash comp)) with (mkKey dir 84 (NameHash comp)). unfold DirItems. change DirItemKey with 84.
    rewrite (range_for_items _ _ _ _ EG).
    assert (Slow : match named contents dir comp with
      | Some d => (last || is_dir d = true -> exists s, fold_items (slow_body comp last) (map row (group is 5 84 dir)) None = Ok (Some s) /\ item_for s d) /\
                  (fold_items (slow_body comp last) (map row (group is 5 84 dir)) None = Ok None \/ exists s, fold_items (slow_body comp last) (map row (group is 5 84 dir)) None = Ok (Some s) /\ item_for s d)
      | None => fold_items (slow_body comp last) (map row (group is 5 84 dir)) None = Ok None end).
    { clear EF EG. unfold named. destruct (HT dir) as [ND _]. induction H2 as [|[k s] d l ds [A1 A2] H2 IH]; [reflexivity|]. cbn [map List.find fold_items] in *. cbn [snd] in A1. inversion ND as [|? ? Hn ND']; subst.
      destruct (PropsPath.entry_acc s d A1 A2) as (En & Ed & _). unfold slow_body at 1 3 5 7. rewrite En. cbn [rbind]. destruct (bytes_eqb (di_name d) comp) eqn:Eb.
      - rewrite Ed. cbn [rbind]. change (di_type d =? 2) with (is_dir d). destruct (is_dir d || last) eqn:Eo.
        + cbn [rbind]. split; [intros _|right]; exists s; (split; [reflexivity|split; assumption]).
        + cbn [rbind]. split; [intros H; rewrite orb_comm in H; congruence|]. left. apply bytes_eqb_eq in Eb. specialize (IH ND').
          destruct (List.find (fun d0 => bytes_eqb (di_name d0) comp) ds) as [d'|] eqn:E'; [|exact IH]. apply find_some in E' as [Hin E']. apply bytes_eqb_eq in E'. destruct Hn. rewrite Eb, <- E'. apply in_map. exact Hin.
      - cbn [rbind]. exact (IH ND'). }
    destruct (FindItem b max64 5 (mkKey dir 84 (NameHash comp))) as [[v|]| |]; cbn [rbind item_data_opt] in EF |- *; try discriminate; [|exact Slow].
    destruct (valueData v) as [d| |]; cbn [rbind] in EF |- *; try discriminate. unfold item_data in EF.
    destruct (item_at is 5 (mkKey dir 84 (NameHash comp))) as [i|] eqn:EI; cbn [option_map] in EF; [|discriminate]. assert (d = sl (i_data i)) by congruence. subst d.
    assert (Hi : exists d, In d (contents dir) /\ item_for (sl (i_data i)) d).
    { apply find_some in EI as [Hi E]. apply same_keyb_eq in E. assert (Hg : In (row i) (map row (group is 5 84 dir))) by (apply in_map, filter_In; split; [exact Hi|rewrite E; cbn [KType ObjectID]; lia]).
      destruct (Forall2_In_l _ _ _ H2 _ Hg) as (d & Hd & HI). exists d. split; [exact Hd|exact HI]. }
    destruct Hi as (d & Hin & HI). destruct (PropsPath.entry_acc _ d (proj1 HI) (proj2 HI)) as (En & _). rewrite En. cbn [rbind].
    destruct (bytes_eqb (di_name d) comp) eqn:Eb; [|exact Slow]. apply bytes_eqb_eq in Eb. rewrite <- Eb, (named_in dir d Hin).
    split; [intros _|right]; exists (sl (i_data i)); auto.
  Qed.
  Lemma target_fine dir d : In d (contents dir) -> fine (target d).
  Proof.
    intros Hd. destruct (HC dir) as [_ H2]. destruct (DiskProofs.Forall2_in_r _ _ _ H2 d Hd) as (e & He & HI). destruct (item_type _ _ HI) as (_ & _ & loc & L & LO & _). unfold target. rewrite <- LO. refine (table_leads is cs HV HD 5 dir e loc He L).
  Qed.
  Lemma comp_empty dir comp last : fine dir -> contents dir = [] -> find_comp fuel b max64 5 dir comp last = Ok None.
  Proof. intros Fd E. pose proof (comp_found dir comp last Fd) as H. unfold named in H. rewrite E in H. exact H. Qed.
  Lemma path_found comps : comps <> [] -> forall dir r0, fine dir ->
    match entry_at contents dir comps with Some d => exists s, path_loop fuel b max64 5 dir comps r0 = Ok (Some s) /\ item_for s d | None => path_loop fuel b max64 5 dir comps r0 = Ok None end.
  Proof.
    induction comps as [|c rest IH]; [congruence|]. intros _ dir r0 Fd. cbn [path_loop].
    pose proof (comp_found dir c (match rest with [] => true | _ => false end) Fd) as HX.
    assert (E : entry_at contents dir (c :: rest) = match rest with [] => named contents dir c | _ => match named contents dir c with Some d => if is_dir d then entry_at contents (target d) rest else None | None => None end end) by (destruct rest; reflexivity).
    rewrite E. clear E. destruct (named contents dir c) as [d|] eqn:EN; [|rewrite HX; cbn [rbind]; destruct rest; reflexivity].
    assert (Hin : In d (contents dir)) by (apply find_some in EN; apply EN). destruct (proj2 (HT dir) d Hin) as [NS NC]. pose proof (target_fine dir d Hin) as Ft.
    assert (Go1 : forall s, item_for s d -> DirItem_IsSubvolume s = Ok false /\ exists loc, DirItem_Location s = Ok loc /\ ObjectID loc = target d).
    { intros s [A1 A2]. destruct (PropsPath.entry_acc s d A1 A2) as (_ & _ & Es & t & f & El). split; [rewrite Es; f_equal; lia|]. eexists. split; [exact El|reflexivity]. }
    destruct HX as [HX1 HX2]. destruct rest as [|c2 rest].
    - destruct HX1 as (s & -> & HI); [reflexivity|]. cbn [rbind]. destruct (Go1 s HI) as (-> & loc & -> & _). cbn [rbind path_loop]. exists s. auto.
    - destruct (is_dir d) eqn:ED.
      + destruct HX1 as (s & -> & HI); [reflexivity|]. cbn [rbind]. destruct (Go1 s HI) as (-> & loc & -> & EL). cbn [rbind]. rewrite EL. apply IH; [discriminate|exact Ft].
      + destruct HX2 as [->|(s & -> & HI)]; [reflexivity|]. cbn [rbind]. destruct (Go1 s HI) as (-> & loc & -> & EL). cbn [rbind]. rewrite EL.
        cbn [path_loop]. rewrite (comp_empty (target d) c2 _ Ft (NC eq_refl)). reflexivity.
  Qed.
  Lemma path_finds : finds (FindDirItemForPath fuel b max64) (path_entry contents).
  Proof.
    intros p. unfold path_entry, FindDirItemForPath. change FirstFreeObjectID with 256. apply path_found; [|unfold fine; lia].
    induction (TrimLeft p) as [|x l IH]; cbn [Split]; [discriminate|]. destruct (beqb x slash); [discriminate|]. destruct (Split l); discriminate.
  Qed.
  Lemma entry_fine comps : forall dir d, entry_at contents dir comps = Some d -> fine (target d).
  Proof.
    induction comps as [|c rest IH]; intros dir d H; [discriminate|].
    assert (HN : forall d, named contents dir c = Some d -> fine (target d)) by (intros d' EN; apply find_some in EN as [Hin _]; exact (target_fine dir d' Hin)).
    cbn [entry_at] in H. destruct rest as [|c2 rest]; [exact (HN d H)|]. destruct (named contents dir c) as [d0|]; [|discriminate]. destruct (is_dir d0); [|discriminate]. exact (IH _ _ H).
  Qed.
  Lemma path_leads p di : FindDirItemForPath fuel b max64 5 p = Ok (Some di) -> lead di.
  Proof.
    intros H. pose proof (path_finds p) as HX. destruct (path_entry contents p) as [d|] eqn:E; [|congruence]. destruct HX as (s & E' & HI). assert (di = s) by congruence. subst s.
    intros loc Hloc. destruct (item_type _ _ HI) as (_ & _ & loc' & L & LO & _). assert (loc' = loc) by congruence. subst loc'. rewrite LO. exact (entry_fine _ _ _ E).
  Qed.
End Lookup.

(** ** the whole way: scan an image, then ls from the index *)
Theorem C71_recon_then_ls : forall id D bs is cs contents inodes,
  big_enough D bs -> 101 <= bs -> length id = 16%nat -> id <> repeat x00 16 ->
  image_items id D bs is -> orderly is -> chunks_are is cs ->
  (forall d, dir_holds (table is cs) 5 d (contents d)) -> inodes_are (table is cs) 5 inodes -> plain_tree contents ->
  exists b ix,
    doScanFS true true PropsRecon.no_faults (file_dev D) bs id None = (Some b, XOk) /\
    OpenReadOnly (Some b) = Ok (Some b, Some ix) /\ ix_tx ix = Some (mkTx false b) /\
    forall rfuel, (length b + 1 < rfuel)%nat -> forall st sort recursive show args, sorter sort ->
    let what := map (shown_for (path_entry contents)) (match args with [] => [root_path] | _ => args end) in
    (recursive = true -> forall d, In d (flat_map dir_of what) -> Acc (subdir contents) d) ->
    exists fuel0 texts, Forall2 (ls_text st inodes show contents recursive) (flat_map dir_of what) texts /\ forall fuel, (fuel0 <= fuel)%nat ->
      doListFiles st sort (FindDirItemForPath rfuel b (ix_Generation ix)) fuel (ix_queries rfuel b (ix_Generation ix)) recursive show args =
      Ok (concat (map (ls_line st inodes show) (flat_map one_of what)), flat_map missing_of what, concat texts).
Proof.
  intros id D bs is cs contents inodes HB Hb Hlen Hid HI HD HC Hcon Hino HT.
  set (o := mkOptions false bs id (2^64 - 1) false). set (m := newIndexMetadata o).
  destruct (open_none bs id Hlen) as (ix0 & HO). fold o in HO. fold m in HO.
  destruct (recon_run id D bs None (Some [(metadataKey, m)]) ix0 HB Hid HO) as (b0' & E0 & HRun). injection E0 as <-.
  rewrite (trace_items id D bs is HB Hb HI) in HRun. cbn [fst snd] in HRun. destruct (items_wf _ _ _ _ HI) as [W1 W2].
  assert (Op0 : opened [(metadataKey, m)]) by (split; [split; [cbn; auto|repeat constructor]|exists m; left; reflexivity]).
  set (b := fold_left put_ins is [(metadataKey, m)]) in *.
  assert (Op : opened b) by (apply puts_opened; assumption).
  assert (G : get b metadataKey = Some m) by (unfold b; rewrite PropsReconAny.get_metadata_puts by assumption; apply get_In; [apply Op0|left; reflexivity]).
  change m with (md_record 20190809 (u32 (o_BlockSize o)) (o_FSID o) (o_Generation o)) in G.
  destruct (C25_open_existing ro_options b _ _ _ _ (proj1 Op) G) as [(_ & ix & HX & _ & _ & HG & HTx & _)|[HN _]]; [unfold is_u64; lia|apply u32_range|exact Hlen| |].
  2:{ destruct HN. split; [lia|]. split; [right; reflexivity|left; reflexivity]. }
  exists b, ix. split; [exact HRun|]. split; [exact HX|]. split; [exact HTx|]. intros rfuel Hr st sort recursive show args HS what HAcc. rewrite HG. change (o_Generation ro_options) with max64.
  assert (HIV := items_value id D bs is HI). assert (HAg : agrees (table is cs) (ix_queries rfuel b max64)) by (apply table_agrees; assumption).
  assert (HLd : forall o d e loc, In e (st_items (q_dirItems (table is cs) o d)) -> DirItem_Location (snd e) = Ok loc -> fine (ObjectID loc)) by (intros; eapply table_leads; eassumption).
  destruct (C65_arguments_partial st sort (FindDirItemForPath rfuel b max64) (path_entry contents) (table is cs) inodes contents recursive show args HS) as (f0 & texts & HTx' & HR); try assumption.
  { apply (path_finds is m cs contents rfuel W1 HIV HD Hr Hcon HT). }
  exists f0, texts. split; [exact HTx'|]. intros fuel Hfuel. rewrite (ls_same (table is cs) _ contents st sort HAg HLd HS Hcon).
  - apply HR. exact Hfuel.
  - intros p di. apply (path_leads is m cs contents rfuel W1 HIV HD Hr Hcon HT).
Qed.
Print Assumptions C71_recon_then_ls.
