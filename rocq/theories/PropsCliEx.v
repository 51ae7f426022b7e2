(** C89-C92: a concrete machine. *)
From Coq Require Import Strings.String.
From Verif Require Import Go GoProofs Layout LayoutProofs SpecLayout KeyFmt KeyProofs Bolt Store StoreProofs SpecStore Session PropsSession IoUtil Recon PropsRecon PropsReconEx RangeItems.
From Verif Require Import PropsPath ToString Fs Recover SpecFs SpecContent SpecTree SpecDisk DiskProofs PropsDest PropsDisk Rescue PropsRescueRead PropsRescueNode SpecMount PropsMount PropsMountDisk.
From Verif Require Import PropsRecoverEx PropsTreeEx PropsDiskEx PropsDamageEx PropsMountLossEx SpecAgree PropsAgree PropsAgreeEx Uuid PropsUuid Identify PropsIdentify PropsSamples PropsIdentifyAll PropsIdentifyEx Ls Cli SpecCli PropsCli PropsWork PropsWork2.
From Coq Require Import List Permutation Sorting.Sorted ZifyBool ZifyNat ZifyN.
From Verif Require Import Go.
Ltac Zify.zify_post_hook ::= Z.div_mod_to_equations.

(** image "i", metadata file "m", nothing else; the destination is described in PropsDiskEx *)
Definition p_i : list byte := [x69]. Definition p_m : list byte := [x6d].
Definition host_with (dev : device) (db : db_file) : host := mkHost (fun p => if bytes_eqb p p_m then db else NoFile) (fun p => if bytes_eqb p p_i then Some dev else None) (w0 F_o).
Definition g_m : globals := mkGlobals 4096 p_m.
Definition o_of (fuel cfuel rfuel : nat) (rnd : nat -> Z) : oracle :=
  mkOracle fuel cfuel rfuel true true (fun _ _ => true) E0 true rnd (fun _ => SpecFloat.S754_zero false) (fun m => m) (fun l => Ok l) (fun _ => []).
Definition dev0 : device := mkDev (2^30, true) (fun _ _ => ([], Some EOF)).

(** C89: commands that fail, and why *)
Example C89_ex_args : unusable (host_with dev0 NoFile) g_m (CRecover false) [p_i]. Proof. apply wrong_arguments. cbn. unfold zlen. cbn. lia. Qed.
Example C89_ex_image : unusable (host_with dev0 NoFile) g_m (CRecon (Some (Uuid.String id0)) false) [p_m]. Proof. eapply no_image; reflexivity. Qed.
Example C89_ex_file : unusable (host_with dev0 NoFile) g_m CMount [p_i; p_m]. Proof. apply no_metadata_file; exact Logic.I. Qed.
Example C89_ex_small : unusable (host_with (mkDev (1000, true) (fun _ _ => ([], Some EOF))) NoFile) g_m (CIdentify 1 1 1 1) [p_i].
Proof. eapply too_small; try reflexivity; cbn; try lia. Qed.
Example C89_ex_id : unusable (host_with dev0 NoFile) g_m (CRecon None true) [p_i]. Proof. eapply no_id; [reflexivity|]. intros (t & u & H & _). discriminate. Qed.
(** block size 0 makes recon panic *)
Example C89_ex_zero : unusable (host_with dev0 NotDatabase) (mkGlobals 0 p_m) (CRecon (Some (Uuid.String id0)) false) [p_i] /\
  r_end (btrfscue (o_of 0 0 0 (fun _ => 0)) (host_with dev0 NotDatabase) (mkGlobals 0 p_m) (CRecon (Some (Uuid.String id0)) false) [p_i]) = Panics.
Proof. split; [|vm_compute; reflexivity]. apply (other_metadata _ _ _ _ (Uuid.String id0) id0 false); [reflexivity|apply (proj1 (proj1 (C32_parse (repeat x00 16) (Uuid.String id0)) id0)); vm_compute; reflexivity|exact id0_len|exact Logic.I]. Qed.

#[local] Opaque id0 n_blocks n_is n_tree qn.
Lemma spells_id0 : spells (Uuid.String id0) id0.
Proof. apply (proj1 (proj1 (C32_parse (repeat x00 16) (Uuid.String id0)) id0)). exact (proj1 (C32_roundtrip id0 (repeat x00 16) id0_len)). Qed.
Lemma host_dev dev db : h_dev (host_with dev db) p_i = Some dev. Proof. reflexivity. Qed.
Lemma trouble0 fuel cfuel rfuel rnd : no_trouble (o_of fuel cfuel rfuel rnd). Proof. repeat split. Qed.
Lemma pm_ne : g_metadata g_m <> []. Proof. discriminate. Qed.
(** C90: "recon --id ... i", "recover i /d", "mount i /mnt": x of subvolume s is restored and mounted *)
Example C90_ex : forall N cfuel, enough N -> 2^64 < Z.of_nat cfuel -> let h := host_with (file_dev (image_of 4096 n_blocks N)) NoFile in
  exists h1 b, btrfscue (o_of 0 0 0 (fun _ => 0)) h g_m (CRecon (Some (Uuid.String id0)) false) [p_i] = mkResult h1 ONone Exit0 /\
    (forall rfuel, (Datatypes.length b + 1 < rfuel)%nat -> exists fuel h2, btrfscue (o_of fuel cfuel rfuel (fun _ => 0)) h1 g_m (CRecover false) [p_i; abs1 s_d] = mkResult h2 ONone Exit0 /\
       look (w_fs (h_world h2)) [s_d; s_s; s_x] = Some (NFile b_abc)) /\
    exists gen, btrfscue (o_of 0 0 0 (fun _ => 0)) h1 g_m CMount [p_i; p_m] = mkResult h1 ONone (Serving b gen (Reader (file_reader (image_of 4096 n_blocks N))) p_m) /\
      forall rfuel, (Datatypes.length b + 1 < rfuel)%nat -> exists T n, session (ix_queries rfuel b gen) T /\ In ([s_s; s_x], false, n) T.
Proof.
  intros N cfuel HN Hcf h. destruct (blocks_image id0 n_blocks n_iss N HN n_lens ltac:(vm_compute; reflexivity) n_ok) as [HB HI]. change (concat n_iss) with n_is in HI. set (D := image_of 4096 n_blocks N) in *. clearbody D.
  destruct (C90_recon_recover (o_of 0 0 0 (fun _ => 0)) h g_m (Uuid.String id0) id0 false p_i D n_is [] n_tree (abs1 s_d) [s_d] (trouble0 0 0 0 _) (host_dev _ _) pm_ne eq_refl HB ltac:(cbn; lia) spells_id0 id0_len id0_nonzero HI n_orderly n_chunks (n_volume D)) as (h1 & b & R1 & R2 & R3).
  destruct (C90_recon_mount (o_of 0 0 0 (fun _ => 0)) h g_m (Uuid.String id0) id0 false p_i D n_is [] n_tree _ (trouble0 0 0 0 _) (host_dev _ _) pm_ne eq_refl HB ltac:(cbn; lia) spells_id0 id0_len id0_nonzero HI n_orderly n_chunks (n_shows D) n_mountable (file_reader_good D)) as (h1' & b' & S1 & S2 & S3).
  assert (h1' = h1) by congruence. subst h1'. assert (b' = b) by (destruct R2 as [X _], S2 as [Y _]; congruence). subst b'. exists h1, b. split; [exact R1|]. split.
  - intros rfuel Hr. destruct (R3 (o_of 0 cfuel rfuel (fun _ => 0)) g_m false eq_refl ltac:(intros n k; reflexivity) Hcf Hr o_dest n_short) as (n & HX).
    { intros r nd Hrn. assert (X : None = Some nd) by (etransitivity; [symmetry; exact (o_look r)|exact Hrn]). discriminate X. }
    { right. intros r nd Hrn. assert (X : None = Some nd) by (etransitivity; [symmetry; exact (o_look r)|exact Hrn]). discriminate X. }
    destruct (HX n (le_n n)) as (h2 & w & evs & E & (_ & _ & Hw) & HT & _). exists n, h2. split; [exact E|]. rewrite Hw. exact (HT [s_s; s_x]).
  - destruct (S3 (o_of 0 0 0 (fun _ => 0)) g_m p_m eq_refl eq_refl) as (gen & E & _ & HV). exists gen. split; [exact E|]. intros rfuel Hr. destruct (HV rfuel Hr) as [_ V2].
    destruct (V2 _ [s_s; s_x] (TFile b_abc) (ses_mount _) (ex_intro _ _ (or_introl eq_refl)) eq_refl) as (T & n & H1 & _ & H2). exists T, n. split; [exact H1|exact H2].
Qed.
Print Assumptions C90_ex.
(** C92: the items of that image in the dump, e.g. the inode item of the root directory *)
Example C92_ex : forall N, enough N -> let h := host_with (file_dev (image_of 4096 n_blocks N)) NoFile in
  exists h1 ts, btrfscue (o_of 0 0 0 (fun _ => 0)) h g_m (CRecon (Some (Uuid.String id0)) false) [p_i] = mkResult h1 ONone Exit0 /\
    In (5, mkKey 256 1 0, 7) ts /\ In (256, mkKey 261 108 0, 7) ts /\
    forall fuel, (Datatypes.length ts + 2 < fuel)%nat -> btrfscue (o_of fuel 0 0 (fun _ => 0)) h1 g_m CDumpIndex [] = mkResult h1 (ODump (listing None (ts ++ [(2^64 - 1, mkKey (2^64 - 256) 255 (2^64 - 1), 2^64 - 1)]))) Exit0.
Proof.
  intros N HN h. destruct (blocks_image id0 n_blocks n_iss N HN n_lens ltac:(vm_compute; reflexivity) n_ok) as [HB HI]. change (concat n_iss) with n_is in HI. set (D := image_of 4096 n_blocks N) in *. clearbody D.
  assert (Hne : n_is <> []) by (intros X; apply (f_equal (fun l => match l with [] => true | _ => false end)) in X; vm_compute in X; discriminate).
  destruct (C92_recon_dump (o_of 0 0 0 (fun _ => 0)) h g_m (Uuid.String id0) id0 false p_i D n_is (trouble0 0 0 0 _) (host_dev _ _) pm_ne eq_refl HB ltac:(cbn; lia) spells_id0 id0_len id0_nonzero HI Hne) as (h1 & b & ts & R1 & _ & _ & R2 & R3).
  assert (HIn : forall o k g, existsb (fun i => (i_owner i =? o) && (KType (i_key i) =? KType k) && (ObjectID (i_key i) =? ObjectID k) && (KOffset (i_key i) =? KOffset k) && (i_gen i =? g)) n_is = true -> In (o, k, g) ts).
  { intros o k g H. apply existsb_exists in H as (i & Hi & E). apply R2. exists i. split; [exact Hi|]. destruct (i_key i) as [k1 k2 k3] eqn:EK, k as [c1 c2 c3]. cbn [KType ObjectID KOffset] in E. unfold same_tuple. rewrite EK. clear -E.
    apply andb_prop in E as [E E5]. apply andb_prop in E as [E E4]. apply andb_prop in E as [E E3]. apply andb_prop in E as [E1 E2]. split; [lia|]. split; [f_equal; lia|lia]. }
  exists h1, ts. split; [exact R1|]. split; [apply HIn; vm_cast_no_check (eq_refl true)|]. split; [apply HIn; vm_cast_no_check (eq_refl true)|]. intros fuel Hf. apply R3; [reflexivity|exact Hf].
Qed.
Print Assumptions C92_ex.
(** C91: identify reports id0 for the image of PropsDiskEx, and recon accepts it as printed *)
#[local] Opaque d_blocks d_is.
Example C91_ex : forall N, 2^27 <= N < 2^30 -> let D := image_of 4096 d_blocks N in let h := host_with (file_dev D) NoFile in
  exists fuel rows e, let o := o_of fuel 0 0 (fun k => Z.of_nat k mod (zlen D / 4096)) in
    btrfscue o h g_m (CIdentify 3 1000 1000000 4) [p_i] = mkResult h (OReport rows) Exit0 /\ In e rows /\ e_FSID e = id0 /\
    exists h1 b, btrfscue o h g_m (CRecon (Some (Uuid.String (e_FSID e))) false) [p_i] = mkResult h1 ONone Exit0 /\ gained h h1 p_m b /\ exists k v, stored b 5 k 7 v.
Proof.
  intros N HN D h. destruct (C72_ex N HN) as (fuel & rows & e & E & He & Hid & _). fold D in E. exists fuel, rows, e. cbv zeta. set (o := o_of fuel 0 0 (fun k => Z.of_nat k mod (zlen D / 4096))).
  assert (HZ : zlen D = 65536 + 4096 + 4096 * zlen d_blocks + N) by (apply image_of_len; [lia|lia|exact d_lens]). assert (EB : zlen d_blocks = 6) by (vm_cast_no_check (eq_refl 6)). rewrite EB in HZ.
  destruct (blocks_image id0 d_blocks d_iss N ltac:(unfold enough; lia) d_lens ltac:(rewrite EB; lia) d_ok) as [HB HI]. change (concat d_iss) with d_is in HI. fold D in HB, HI.
  assert (HA : accepted (zlen D) 4096) by (unfold accepted; lia). assert (HR : room (zlen D) 4096) by (unfold room; lia).
  destruct (round_fair (zlen D) ltac:(lia)) as [Hd _].
  assert (EX : btrfscue o h g_m (CIdentify 3 1000 1000000 4) [p_i] = mkResult h (OReport rows) Exit0).
  { unfold btrfscue. change (args_ok (CIdentify 3 1000 1000000 4) [p_i]) with true. cbn [negb]. unfold run_identify. unfold h at 1. rewrite host_dev. cbn [file_dev dev_seek dev_read].
    subst o. unfold o_of. cbn [o_fuel o_rnd o_ent o_order g_blockSize g_m]. rewrite E. reflexivity. }
  split; [exact EX|]. split; [exact He|]. split; [exact Hid|].
  assert (U1 : is_u64 3 /\ is_u64 1000 /\ is_u64 1000000) by (unfold is_u64; clear; lia). destruct U1 as (U1 & U2 & U3).
  assert (H126 : 126 <= 4096) by (clear; lia).
  destruct (C91_identify_recon o h g_m p_i D 3 1000 1000000 4 h rows (host_dev _ _) HA HR H126 Hd U1 U2 U3 (fun m => Permutation_refl m) ltac:(intros i X; discriminate X) EX) as (_ & HC).
  destruct (HC e He) as (_ & HC'). clear HC. rewrite Hid in HC'. destruct (HC' o false d_is (trouble0 _ _ _ _) pm_ne eq_refl HI) as (h1 & b & H1 & H2 & H3). exists h1, b. rewrite Hid. split; [exact H1|]. split; [exact H2|].
  assert (HF : existsb (fun i => i_owner i =? 5) d_is = true) by (vm_cast_no_check (eq_refl true)). apply existsb_exists in HF as (i & Hi & Eo). apply Z.eqb_eq in Eo.
  clear -Hi Eo H3.
  assert (HF : forallb (fun i => (0 <=? i_owner i) && (i_owner i <? 2^64) && (0 <=? ObjectID (i_key i)) && (ObjectID (i_key i) <? 2^64) && (0 <=? KType (i_key i)) && (KType (i_key i) <? 256) && (0 <=? KOffset (i_key i)) && (KOffset (i_key i) <? 2^64)) d_is = true) by (vm_cast_no_check (eq_refl true)).
  assert (HW : forall i, In i d_is -> wf_tuple (i_owner i) (i_key i) (i_gen i)).
  { rewrite forallb_forall in HF. clear -HF. intros i Hi. specialize (HF i Hi). rewrite (d_gen i Hi). clear -HF. unfold wf_tuple, wf_Key, is_u64, is_u8. repeat (apply andb_prop in HF; destruct HF as [HF ?]). lia. }
  destruct (last_exists d_is i Hi) as (en & (x & j & z & Ej & E1 & E2) & E3).
  assert (Hj : In j d_is) by (rewrite Ej; apply in_or_app; right; left; reflexivity).
  assert (Hinj : forall j', In j' d_is -> PropsReconAny.ikey j' = PropsReconAny.ikey i <-> same_tuple j' (i_owner i) (i_key i) (i_gen i)).
  { intros j' Hj'. unfold same_tuple, PropsReconAny.ikey. split; [intros X; apply PropsReconAny.newIndexKey_inj in X; [exact X|exact (HW j' Hj')|exact (HW i Hi)]|intros (X1 & X2 & X3); congruence]. }
  exists (i_key i), (i_item j ++ i_data j). rewrite <- Eo, <- (d_gen i Hi). apply H3; [exact (HW i Hi)|rewrite Eo; clear; lia|].
  exists x, j, z. split; [exact Ej|]. split; [apply Hinj; [exact Hj|]; rewrite <- E3, E1; reflexivity|]. split; [reflexivity|].
  intros j' Hj' X. apply (E2 j' Hj'). rewrite E3. apply Hinj; [rewrite Ej; apply in_or_app; right; right; exact Hj'|exact X].
Qed.
Print Assumptions C91_ex.
