(** C93, listings: the entries and inodes of a written volume, for ls. *)
From Verif Require Import Go GoProofs Layout LayoutProofs SpecLayout LeafProofs StructProofs PropsLayout KeyFmt KeyProofs Bolt Store SpecStore Session PropsSession IoUtil Crc PropsCrc Recon PropsRecon.
From Verif Require Import ToString Path Fs Recover SpecFs SpecContent SpecTree SpecDisk DiskProofs PropsDisk Rescue PropsRescueRead PropsRescueNode Ls PropsLs PropsLsDisk SpecVolume VolumeProofs.
From Coq Require Import List Lia ZifyBool ZifyNat ZifyN Sorting.Sorted.
From Verif Require Import Go.

(** what directory number [d] of the volume holds *)
Definition object (v : vtree) (i : Z) : option vtree := List.find (fun w => v_ino w =? i) (nodes v).
Definition entry (attrs : Z -> d_inode) (k : list byte * vtree) : d_dir_item :=
  {| di_location := {| k_objectid := v_ino (snd k); k_type := 1; k_offset := 0 |}; di_transid := in_generation (attrs (v_ino (snd k))); di_type := v_type (snd k); di_name := fst k; di_data := [] |}.
Definition entries (attrs : Z -> d_inode) (v : vtree) (d : Z) : list d_dir_item :=
  match object v d with Some (VDir _ kids) => map (entry attrs) kids | _ => [] end.
Definition inodes_of (attrs : Z -> d_inode) (v : vtree) (i : Z) : option d_inode := option_map (fun _ => attrs i) (object v i).

Section VolumeLs.
  Variables (attrs : Z -> d_inode) (D : list byte) (f : Z) (c : d_chunk) (V : vtree) (is : list insertion).
  Hypothesis HV : sound_volume attrs D f c V.
  Hypothesis HC : sound_chunk f c.
  Hypothesis HI : carries_volume attrs f c is V.
  Hypothesis HW : Forall wf_ins is.
  Let q := table is [(f, c)].

  Lemma object_some i w : object V i = Some w -> In w (nodes V) /\ v_ino w = i.
  Proof. intros H. apply List.find_some in H as [H1 H2]. cbv beta in H2. split; [exact H1|lia]. Qed.
  Lemma object_of w : In w (nodes V) -> object V (v_ino w) = Some w.
  Proof.
    intros Hw. unfold object. destruct (List.find _ (nodes V)) as [u|] eqn:E.
    - apply object_some in E as [H1 H2]. f_equal. exact (v_same attrs D f c V HV u w H1 Hw H2).
    - pose proof (List.find_none _ _ E w Hw) as H. cbv beta in H. lia.
  Qed.
  Lemma object_none i : object V i = None -> forall w, In w (nodes V) -> v_ino w <> i.
  Proof. intros H w Hw E. rewrite <- E, (object_of w Hw) in H. discriminate. Qed.
  Lemma l_item k d : (KType k = 1 \/ KType k = 84) -> (exists i, In i is /\ i_owner i = 5 /\ i_key i = k /\ i_data i = d) -> exists w, In w (nodes V) /\ ObjectID k = v_ino w /\ In (k, d) (own attrs w).
  Proof.
    intros Ht H. apply (tree5 attrs f c V is HI k d) in H; [|tauto]. unfold items in H. apply in_flat_map in H as (w & Hw & H). exists w. split; [exact Hw|]. split; [exact (proj1 (own_key attrs w k d H))|exact H].
  Qed.
  Lemma l_inodes : inodes_are q 5 (inodes_of attrs V).
  Proof.
    intros i. unfold inodes_of. destruct (object V i) as [w|] eqn:E; cbn [option_map].
    - destruct (object_some i w E) as [Hw <-]. exact (v_inode attrs D f c V is HV HI w Hw).
    - unfold q, table. cbn [q_inode]. f_equal. unfold item_at, item_data. destruct (List.find _ (tree_items is 5)) as [j|] eqn:EF; [|reflexivity]. exfalso.
      apply List.find_some in EF as [Hj Hk]. apply same_keyb_eq in Hk. destruct (tree_in _ _ _ Hj) as [Hj1 Hj2].
      destruct (l_item (mkKey i 1 0) (i_data j)) as (w & Hw & Ew & _); [left; reflexivity|exists j; auto|]. exact (object_none i E w Hw (eq_sym Ew)).
  Qed.
  Lemma l_group_none d : (forall w, In w (nodes V) -> v_ino w = d -> match w with VDir _ _ => False | _ => True end) -> group is 5 84 d = [].
  Proof.
    intros H. destruct (group is 5 84 d) as [|g G] eqn:E; [reflexivity|]. exfalso. assert (Hg : In g (group is 5 84 d)) by (rewrite E; left; reflexivity). apply filter_In in Hg as [Hg Hk]. cbv beta in Hk. destruct (tree_in _ _ _ Hg) as [Hg1 Hg2].
    destruct (l_item (i_key g) (i_data g)) as (w & Hw & Ew & Ho); [lia|exists g; auto|]. specialize (H w Hw ltac:(lia)). apply own_split in Ho as [Ho|[Ho|Ho]].
    - unfold inode_item in Ho. assert (X : i_key g = mkKey (v_ino w) 1 0) by congruence. rewrite X in Hk. cbn [KType] in Hk. lia.
    - destruct (ext_key attrs w _ _ Ho) as [_ X]. rewrite X in Hk. lia.
    - destruct w; cbn [dir_of_v] in Ho; [destruct Ho|destruct Ho|exact H].
  Qed.
  Lemma l_kids i kids : In (VDir i kids) (nodes V) -> dir_holds q 5 i (map (entry attrs) kids).
  Proof.
    intros Hv. split; [reflexivity|]. unfold q, table. cbn [q_dirItems st_items]. pose proof (group_dir attrs D f c V is HV HI (VDir i kids) Hv) as EG. cbn [v_ino dir_of_v] in EG.
    assert (HN : forall k, In k kids -> carries (sl (ser (dir_item_fields (entry attrs k)))) (dir_item_fields (entry attrs k)) /\ zlen (di_name (entry attrs k)) <= 255).
    { intros k Hk. split; [exact (name_carried attrs D f c V HV i kids k Hv Hk)|]. destruct (v_node attrs D f c V HV _ Hv) as (_ & _ & _ & Hn & _). rewrite Forall_forall in Hn. apply (Hn k Hk). }
    clear Hv. revert EG HN. generalize (group is 5 84 i). induction kids as [|k l IH]; intros G EG HN; [destruct G; [constructor|discriminate]|]. destruct G as [|g G]; [discriminate|]. cbn [map] in EG |- *.
    assert (Eg : i_data g = ser (dir_item_fields (entry attrs k))) by (assert (X : kd g = name_item attrs i k) by congruence; unfold kd, name_item in X; unfold entry; congruence).
    constructor; [cbn [row snd]; rewrite Eg; apply HN; left; reflexivity|]. apply IH; [congruence|]. intros k' Hk'. apply HN. right. exact Hk'.
  Qed.
  Lemma l_dirs d : dir_holds q 5 d (entries attrs V d).
  Proof.
    unfold entries. destruct (object V d) as [w|] eqn:E.
    - destruct (object_some d w E) as [Hw Ew]. destruct w as [i b|i t|i kids]; cbn [v_ino] in Ew; subst d; [| |exact (l_kids i kids Hw)];
        (split; [reflexivity|]; unfold q, table; cbn [q_dirItems st_items]; rewrite l_group_none; [constructor|]; intros w' Hw' Ew'; rewrite (v_same attrs D f c V HV _ _ Hw' Hw Ew'); exact Logic.I).
    - split; [reflexivity|]. unfold q, table. cbn [q_dirItems st_items]. rewrite l_group_none; [constructor|]. intros w Hw Ew. destruct (object_none d E w Hw Ew).
  Qed.
  Lemma l_plain : plain_tree (entries attrs V).
  Proof.
    intros dir. unfold entries. destruct (object V dir) as [w|] eqn:E; [|split; [constructor|intros d []]]. destruct (object_some dir w E) as [Hw Ew]. destruct w as [i b|i t|i kids]; try (split; [constructor|intros d []]).
    destruct (v_node attrs D f c V HV _ Hw) as (_ & _ & _ & Hn & HS). split.
    - rewrite map_map. cbn [entry di_name]. clear -HS. induction kids as [|k l IH]; cbn [map] in *; [constructor|]. inversion HS as [|? ? H1 H2]; subst. constructor; [|exact (IH H1)]. intros X. apply in_map_iff in X as (y & Ey & Hy). rewrite Forall_forall in H2. specialize (H2 (NameHash (fst y)) (in_map (fun k => NameHash (fst k)) l y Hy)). cbv beta in H2. rewrite Ey in H2. lia.
    - intros d Hd. apply in_map_iff in Hd as ((n, w) & <- & Hk). cbn [entry di_location k_type snd]. split; [discriminate|]. unfold is_dir, target. cbn [entry di_type di_location k_objectid snd]. intros Hd. pose proof (kid_node V i kids n w Hw Hk) as Hw'. rewrite (object_of w Hw'). destruct w; [reflexivity|reflexivity|discriminate Hd].
  Qed.
  Lemma l_acc d : Acc (subdir (entries attrs V)) d.
  Proof.
    assert (G : forall w, In w (nodes V) -> Acc (subdir (entries attrs V)) (v_ino w)).
    { intros w. induction w as [i b|i t|i kids IH] using vtree_ind'; intros Hw; constructor; intros d' (e & He & _ & Et); cbn [v_ino] in *;
        unfold entries in He; pose proof (object_of _ Hw) as EO; cbn [v_ino] in EO; rewrite EO in He; [destruct He|destruct He|].
      apply in_map_iff in He as ((n, u) & <- & Hk). unfold target in Et. cbn [entry di_location k_objectid snd] in Et. subst d'. apply (IH n u Hk). exact (kid_node V i kids n u Hw Hk). }
    constructor. intros d' (e & He & _ & Et). unfold entries in He. destruct (object V d) as [w|] eqn:E; [|destruct He]. destruct (object_some d w E) as [Hw Ew]. destruct w as [i b|i t|i kids]; try destruct He.
    apply in_map_iff in He as ((n, u) & <- & Hk). unfold target in Et. cbn [entry di_location k_objectid snd] in Et. subst d'. apply G. exact (kid_node V i kids n u Hw Hk).
  Qed.
  (** the object a path leads to *)
  Fixpoint vsub (v : vtree) (p : list (list byte)) : option vtree :=
    match p with
    | [] => Some v
    | n :: p => match v with VDir _ kids => match List.find (fun k => bytes_eqb (fst k) n) kids with Some k => vsub (snd k) p | None => None end | _ => None end
    end.
  Lemma find_entry kids n : List.find (fun d => bytes_eqb (di_name d) n) (map (entry attrs) kids) = option_map (entry attrs) (List.find (fun k => bytes_eqb (fst k) n) kids).
  Proof. induction kids as [|k l IH]; [reflexivity|]. cbn [map List.find entry di_name fst]. destruct (bytes_eqb (fst k) n); [reflexivity|exact IH]. Qed.
  Lemma entry_path p : forall v, In v (nodes V) -> p <> [] -> entry_at (entries attrs V) (v_ino v) p = option_map (fun w => entry attrs (last p [], w)) (vsub v p).
  Proof.
    induction p as [|n p IH]; intros v Hv Hp; [congruence|]. assert (EN : named (entries attrs V) (v_ino v) n = match v with VDir _ kids => option_map (entry attrs) (List.find (fun k => bytes_eqb (fst k) n) kids) | _ => None end).
    { unfold named, entries. rewrite (object_of v Hv). destruct v as [i b|i t|i kids]; [reflexivity|reflexivity|]. apply find_entry. }
    cbn [entry_at vsub]. destruct p as [|n' p].
    - rewrite EN. destruct v as [i b|i t|i kids]; [reflexivity|reflexivity|]. destruct (List.find _ kids) as [[m w]|] eqn:E; [|reflexivity]. cbn [option_map snd vsub last]. apply List.find_some in E as [_ E]. cbv beta in E. apply bytes_eqb_eq in E. cbn [fst] in E. rewrite E. reflexivity.
    - rewrite EN. destruct v as [i b|i t|i kids]; [reflexivity|reflexivity|]. destruct (List.find _ kids) as [[m w]|] eqn:E; [|reflexivity]. cbn [option_map snd]. apply List.find_some in E as [Hk _]. pose proof (kid_node V i kids m w Hv Hk) as Hw.
      unfold is_dir, target. cbn [entry di_type di_location k_objectid snd]. change (last (n :: n' :: p) []) with (last (n' :: p) (@nil byte)). rewrite <- (IH w Hw ltac:(discriminate)). destruct w as [j b|j t|j sub]; [| |reflexivity]; cbn [v_type].
      + symmetry. rewrite (IH _ Hw ltac:(discriminate)). reflexivity.
      + symmetry. rewrite (IH _ Hw ltac:(discriminate)). reflexivity.
  Qed.
End VolumeLs.
