(** C83, C84: a concrete image: / holds the fifo a (257), two items named f (258 and the empty file 260), g (259) without
    inode item, and the subvolume s (tree 256) with the file x (261). *)
From Verif Require Import Go GoProofs Layout LayoutProofs SpecLayout LeafProofs StructProofs PropsLayout KeyFmt KeyProofs Bolt Store StoreProofs SpecStore RangeProofs PropsStore PropsRange Session PropsSession IoUtil Recon PropsRecon PropsReconEx RangeItems.
From Verif Require Import PropsPath ToString Fs Recover SpecFs SpecContent SpecTree SpecDisk DiskProofs PropsDest PropsDisk SpecLoss Rescue PropsRescueRead PropsRescueNode SpecMount PropsMount SpecMountAny PropsMountAny PropsMountAnyDisk.
From Verif Require Import PropsRecoverEx PropsTreeEx PropsDiskEx PropsLs PropsLsEx PropsLsDisk PropsLsDiskEx PropsLossDiskEx SpecMountLoss PropsMountLoss PropsMountLossDisk PropsMountLossEx.
From Coq Require Import List Permutation ZifyBool ZifyNat ZifyN.
Ltac Zify.zify_post_hook ::= Z.div_mod_to_equations.

Definition hA : list leaf_entry := [d_ino 256 0; d_dir 256 100 257 1 5 s_a; d_dir 256 200 258 1 1 s_f; d_dir 256 300 260 1 1 s_f; d_dir 256 400 259 1 1 s_g; d_dir 256 500 256 132 2 s_s; d_ino 257 0; d_ino 258 3; d_inl 258 0 b_abc; d_ino 260 0].
Definition h_blocks : list (list byte) := [d_leaf 5 hA; d_leaf 1 e1; d_leaf 7 g7; d_leaf 256 gS].
Definition h_iss : list (list insertion) := [d_items 5 hA; d_items 1 e1; d_items 7 g7; d_items 256 gS].
Definition h_is : list insertion := concat h_iss.
Definition h_contents : listing := fun o d =>
  if (o =? 5) && (d =? 256) then [mkdi 257 1 5 s_a; mkdi 258 1 1 s_f; mkdi 260 1 1 s_f; mkdi 259 1 1 s_g; mkdi 256 132 2 s_s]
  else if (o =? 256) && (d =? 256) then [mkdi 261 1 1 s_x] else [].
Definition h_inodes : inode_table := fun o i =>
  if o =? 5 then (if i =? 256 then Some (mkino 0) else if i =? 257 then Some (mkino 0) else if i =? 258 then Some (mkino 3) else if i =? 260 then Some (mkino 0) else None)
  else if o =? 256 then (if i =? 256 then Some (mkino 0) else if i =? 261 then Some (mkino 3) else None) else None.
Lemma h_lens : Forall (fun bl => zlen bl = 4096) h_blocks. Proof. repeat constructor; vm_compute; reflexivity. Qed.
Lemma h_ok : Forall2 (contributes id0 4096) h_blocks h_iss. Proof. contr. Qed.
#[local] Opaque id0.
Lemma h_orderly : orderly h_is. Proof. apply orderlyb_ok. vm_cast_no_check (eq_refl true). Qed.
Lemma h_chunks : chunks_are h_is []. Proof. split; [|exact Logic.I]. set (g := group h_is 3 228 256). vm_compute in g. subst g. apply Forall2_nil. Qed.
Lemma h_reach o i : reach h_contents o i -> In (o, i) [(5, 256); (5, 257); (5, 258); (5, 260); (5, 259); (256, 256); (256, 261)].
Proof.
  induction 1 as [|o d x HR IH HX]; [left; reflexivity|]. cbn [In] in IH.
  destruct IH as [E|[E|[E|[E|[E|[E|[E|[]]]]]]]]; injection E as <- <-; try (destruct HX; fail).
  - destruct HX as [<-|[<-|[<-|[<-|[<-|[]]]]]]; vm_compute; tauto.
  - destruct HX as [<-|[]]; vm_compute; tauto.
Qed.
Lemma h_ino o i d : item_data (item_at h_is o (mkKey i 1 0)) = Some (sl (ser (inode_fields d))) -> forallb fit1b (inode_fields d) = true -> inode_times_ok d -> has_inode (table h_is []) o i d.
Proof. intros E HF HT. eexists. cbn [table q_inode]. rewrite E. split; [reflexivity|]. split; [|exact HT]. rewrite <- (app_nil_r (ser _)). apply carries_self, fits_b. exact HF. Qed.
Ltac hi o i s := exact (h_ino o i (mkino s) ltac:(vm_compute; reflexivity) ltac:(vm_compute; reflexivity) ltac:(vm_compute; intuition discriminate)).
Lemma h_holds : holds (table h_is []) h_contents h_inodes.
Proof.
  intros o i HR. apply h_reach in HR. cbn [In] in HR.
  assert (HE : forall o i, dir_holds (table h_is []) o i (h_contents o i) -> (match h_inodes o i with Some x => has_inode (table h_is []) o i x | None => q_inode (table h_is []) o i = Ok None end) -> dir_holds (table h_is []) o i (h_contents o i) /\ match h_inodes o i with Some x => has_inode (table h_is []) o i x | None => q_inode (table h_is []) o i = Ok None end) by auto.
  destruct HR as [E|[E|[E|[E|[E|[E|[E|[]]]]]]]]; injection E as <- <-; apply HE; clear HE.
  all: try (apply dir_ok; [match goal with |- Forall2 _ ?g _ => set (gg := g); vm_compute in gg; subst gg end; match goal with |- Forall2 _ _ ?g => set (gg := g); vm_compute in gg; subst gg end; repeat (apply Forall2_cons; [vm_compute; reflexivity|]); apply Forall2_nil|vm_compute; reflexivity]).
  all: try (vm_compute; reflexivity).
  all: first [hi 5 256 0|hi 5 257 0|hi 5 258 3|hi 5 260 0|hi 256 256 0|hi 256 261 3].
Qed.
#[local] Opaque h_blocks h_is h_iss.
Lemma h_scan N : enough N -> let D := image_of 4096 h_blocks N in big_enough D 4096 /\ image_items id0 D 4096 h_is.
Proof. intros HN D. destruct (blocks_image id0 h_blocks h_iss N HN h_lens ltac:(vm_compute; reflexivity) h_ok) as [HB HI]. split; assumption. Qed.
(** the paths: a, f, s and s/x are there; g is not, having no inode item *)
Lemma h_paths : at_path h_contents h_inodes [s_a] (5, 257) false /\ at_path h_contents h_inodes [s_f] (5, 260) false /\ at_path h_contents h_inodes [s_s; s_x] (256, 261) false /\ (forall k isd, ~ at_path h_contents h_inodes [s_g] k isd).
Proof.
  split; [|split; [|split]].
  - exact (at_entry h_contents h_inodes [] 5 256 s_a (mkdi 257 1 5 s_a) (at_top _ _) eq_refl ltac:(discriminate)).
  - exact (at_entry h_contents h_inodes [] 5 256 s_f (mkdi 260 1 1 s_f) (at_top _ _) eq_refl ltac:(discriminate)).
  - exact (at_entry h_contents h_inodes [s_s] 256 256 s_x (mkdi 261 1 1 s_x) (at_entry h_contents h_inodes [] 5 256 s_s (mkdi 256 132 2 s_s) (at_top _ _) eq_refl ltac:(discriminate)) eq_refl ltac:(discriminate)).
  - intros k isd H. inversion H as [E1 E2 E3|p' o' d' name' x' A B C E]. change [s_g] with ([] ++ [s_g]) in E. apply app_inj_tail in E as [-> ->]. destruct (at_path_fun _ _ _ _ _ A _ _ (at_top h_contents h_inodes)) as [E _]. injection E as -> ->.
    change (last_named (h_contents FSTreeObjectID FirstFreeObjectID) s_g) with (Some (mkdi 259 1 1 s_g)) in B. assert (x' = mkdi 259 1 1 s_g) by congruence. subst x'. apply C. reflexivity.
Qed.
Example C84_ex : forall N, enough N -> let D := image_of 4096 h_blocks N in exists b ix,
  doScanFS true true PropsRecon.no_faults (file_dev D) 4096 id0 None = (Some b, XOk) /\ OpenReadOnly (Some b) = Ok (Some b, Some ix) /\
  forall rfuel, (length b + 1 < rfuel)%nat -> let q := ix_queries rfuel b (ix_Generation ix) in
  exists T na nf, session q T /\ In ([s_a], false, na) T /\ In ([s_f], false, nf) T /\
    (exists n', GetAttr q na = Ok (n', Some (attr_of 257 (mkino 0)), OK)) /\
    Open q nf = Ok (None, ENOENT) /\
    (forall T' p isd n, session q T' -> In (p, isd, n) T' -> p <> [s_g]).
Proof.
  intros N HN D. destruct (h_scan N HN) as [HB HI].
  assert (HDv : reads_from D (file_reader D)) by (apply PropsRecoverEx.file_reader_good).
  destruct (C84_recon_then_mount_any id0 D 4096 h_is [] (file_reader D) h_contents h_inodes HB ltac:(lia) id0_len id0_nonzero HI h_orderly h_chunks h_holds HDv) as (b & ix & H1 & H2 & _ & H3).
  exists b, ix. split; [exact H1|]. split; [exact H2|]. intros rfuel Hr. destruct (H3 rfuel Hr) as [HA HK]. clear H1 H2 H3 HB HI HDv. set (q := ix_queries rfuel b (ix_Generation ix)) in *. clearbody q. cbv zeta.
  destruct h_paths as (P1 & P2 & _ & P4).
  destruct (HK _ _ _ _ (ses_mount q) (ex_intro _ _ (or_introl eq_refl)) P1) as (T1 & na & S1 & I1 & N1 & K1).
  assert (HR : exists n, In ([], true, n) T1). { specialize (I1 ([], true) (or_introl eq_refl)). apply in_map_iff in I1 as ([[p isd] n] & E & Hn). cbn [fst] in E. injection E as -> ->. exists n. exact Hn. }
  destruct (HK _ _ _ _ S1 HR P2) as (T2 & nf & S2 & I2 & N2 & K2).
  assert (HN1 : exists n, In ([s_a], false, n) T2). { specialize (I2 ([s_a], false)). destruct (proj1 (in_map_iff _ _ _) (I2 (in_map fst _ _ N1))) as ([[p isd] n] & E & Hn). cbn [fst] in E. injection E as -> ->. exists n. exact Hn. }
  destruct HN1 as (na' & N1'). exists T2, na', nf. split; [exact S2|]. split; [exact N1'|]. split; [exact N2|].
  destruct (HA _ _ _ _ S2 N1') as [A1 (G1 & _)]. destruct (HA _ _ _ _ S2 N2) as [A2 (_ & _ & _ & _ & G2 & _)].
  destruct (at_path_fun _ _ _ _ _ P1 _ _ A1) as [E1 _]. destruct (at_path_fun _ _ _ _ _ P2 _ _ A2) as [E2 _].
  split; [|split].
  - rewrite <- E1 in G1. assert (E : n_inode na' = 257) by congruence. exact G1.
  - assert (EO : n_owner nf = 5) by congruence. assert (EI : n_inode nf = 260) by congruence. rewrite EO, EI in G2. apply G2; [vm_compute; reflexivity|reflexivity].
  - intros T' p isd n HS HIn ->. destruct (HA _ _ _ _ HS HIn) as [A _]. exact (P4 _ _ A).
Qed.
(** C83 needs no image: any index that holds a volume *)
Example C83_ex : forall D dev, reads_from D dev -> zlen D < 2^63 -> exists T n, session (table h_is []) T /\ In ([s_s; s_x], false, n) T /\ (n_owner n, n_inode n) = (256, 261).
Proof.
  intros D dev HD HL. destruct (C83_mounted_index (table h_is []) D dev h_contents h_inodes h_holds HD HL) as [_ HK]. destruct h_paths as (_ & _ & P3 & _).
  destruct (HK _ _ _ _ (ses_mount _) (ex_intro _ _ (or_introl eq_refl)) P3) as (T & n & S & _ & N & K). exists T, n. auto.
Qed.
Print Assumptions C84_ex. Print Assumptions C83_ex.
