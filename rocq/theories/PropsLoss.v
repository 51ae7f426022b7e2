(** C77: recover from an index from which items of a sound volume are missing. *)
From Verif Require Import Go GoProofs Layout KeyFmt Bolt Store ToString Fs Recover RecoverProofs SpecFs SpecContent PathProofs SpecTree SpecDamage TreeProofs TreeRun TreeFull TreeLegible TreeDamage PropsTree PropsDamage SpecLoss LossProofs.
From Coq Require Import ZifyBool ZifyNat ZifyN Relations.

Theorem C77_missing_items cfuel E dev D D' q q' bad clobber dest w P kids :
  no_faults E -> damaged bad D' dev -> zlen D' < 2^63 -> 2^64 < Z.of_nat cfuel ->
  (* a sound volume, of which items are missing and data is damaged *)
  volume_shows q D kids -> parents_first q -> no_made_up q -> misses q q' -> zlen D' = zlen D ->
  (* an empty destination, where the paths are not too long *)
  plain_dest E (w_fs w) dest P -> (forall r, r <> [] -> look (w_fs w) (P ++ r) = None) -> paths_short dest kids ->
  (forall e sub ks s, In e (st_items (q_subvolumes q')) -> dir_shows q D (fst (sub_top e)) (snd (sub_top e)) sub ks -> tree_at (TDir sub) s <> None ->
     path_arg (sub_path (Clean dest) (made_up e :: s)) = true) ->
  exists fuel0, forall fuel, (fuel0 <= fuel)%nat ->
  exists w' v, doRecoverFiles fuel cfuel E dev q' clobber dest w = (w', Ret (true, v)) /\
    (* what is untouched, and can still be found, is where it was *)
    (forall r, reaches q' (untouched q q' D D' bad) FSTreeObjectID FirstFreeObjectID r -> look (w_fs w') (P ++ r) = tree_at (TDir kids) r) /\
    (* subvolumes that no directory leads to any more are below a made-up name *)
    (forall e, In e (st_items (q_subvolumes q')) -> orphan q' e -> exists sub ks, dir_shows q D (fst (sub_top e)) (snd (sub_top e)) sub ks /\
       forall r, reaches q' (untouched q q' D D' bad) (fst (sub_top e)) (snd (sub_top e)) r -> look (w_fs w') (P ++ made_up e :: r) = tree_at (TDir sub) r) /\
    (* nothing else appears: every path is one of the volume or of a subvolume with a made-up name, and of the same kind *)
    (forall r nd, look (w_fs w') (P ++ r) = Some nd -> (exists nd', tree_at (TDir kids) r = Some nd' /\ kind_of nd = kind_of nd') \/
       exists e sub ks s, In e (st_items (q_subvolumes q')) /\ r = made_up e :: s /\ dir_shows q D (fst (sub_top e)) (snd (sub_top e)) sub ks /\
         exists nd', tree_at (TDir sub) s = Some nd' /\ kind_of nd = kind_of nd') /\
    (forall p, ~ at_or_below P p -> look (w_fs w') p = look (w_fs w) p).
Proof.
  intros HE HG HL HF HV HPF HNM HM HD HP HEm HS1 HS2. destruct (volume_part q q' D D' bad HM HD kids HV HPF HNM) as (kids' & K1 & K2 & K3 & K4).
  assert (HP0 : look (w_fs w) P = Some NDir) by exact (proj1 (proj2 (proj2 (proj2 (proj2 HP))))).
  assert (H0 : forall r nd, look (w_fs w) (P ++ r) = Some nd -> r = [] /\ nd = NDir).
  { intros r nd H. destruct r as [|c r]; [rewrite app_nil_r in H; split; [reflexivity|congruence]|]. rewrite HEm in H; discriminate. }
  destruct (C76_incomplete_index_partial cfuel E dev D' q' bad clobber dest w P kids' HE HG HL HF K1 HP) as (f0 & H).
  - intros r Hr. destruct (tree_at (TDir kids') r) as [nd|] eqn:EN; [|congruence]. destruct (K2 r nd EN) as [(nd' & A & _)|(e & sub & kk & s & A1 & -> & A3 & nd' & A4 & _)]; [apply HS1; congruence|apply (HS2 e sub kk s A1 A3); congruence].
  - intros r nd Hr. destruct (H0 r nd Hr) as [-> ->]. exists NDir. auto.
  - right. intros r nd Hr. destruct (H0 r nd Hr) as [-> ->]. reflexivity.
  - exists f0. intros fuel Hfu. destruct (H fuel Hfu) as (w' & v & R1 & R2 & R3 & R4). exists w', v. split; [exact R1|]. split; [|split; [|split; [|exact R4]]].
    + intros r Hr. rewrite (R2 r); [exact (K3 r Hr)|]. apply vol_main. apply (reaches_complete q q' D D' bad HM HD). exact Hr.
    + intros e He HO. destruct (K4 e He HO) as (sub & kk & A1 & A2). exists sub, kk. split; [exact A1|]. intros r Hr. rewrite (R2 (made_up e :: r)); [exact (A2 r Hr)|].
      destruct e as [k d]. apply (vol_extra _ _ k d (made_up (k, d)) r He eq_refl); [|apply (reaches_complete q q' D D' bad HM HD); exact Hr].
      intros k' di HI. apply (HNM (k, d) k' di); [exact (part_In _ _ _ (proj1 (ms_subs _ _ HM)) _ He)|exact (part_In _ _ _ (proj1 (ms_dirs _ _ HM _ _)) _ HI)].
    + intros r nd Hr. destruct (R3 r nd Hr) as (nd1 & A1 & A2). rewrite A2. exact (K2 r nd1 A1).
Qed.
Print Assumptions C77_missing_items.
