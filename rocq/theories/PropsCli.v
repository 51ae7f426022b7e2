(** C89: invocations that cannot work. *)
From Verif Require Import Go GoProofs PropsSamples Layout KeyFmt Bolt Store Session IoUtil Uuid Identify Recon ReconCmd Path Fs Recover Rescue Ls Cli SpecStore StoreProofs PropsSession PropsUuid SpecCli.
From Coq Require Import ZifyBool List Lia.

Lemma args_spec c args : args_ok c args = true <-> takes c (zlen args).
Proof. destruct c; cbn [args_ok takes]; rewrite ?Z.eqb_eq, ?Bool.andb_true_iff, ?Z.leb_le; lia || tauto. Qed.
Lemma metadata_empty (m : list byte) : (zlen m =? 0) = true <-> m = [].
Proof. rewrite Z.eqb_eq. destruct m; [split; reflexivity|]. rewrite zlen_cons. pose proof (zlen_nonneg m). split; [lia|discriminate]. Qed.
Lemma compat_ro ver bs fsid : compatible ro_options ver bs fsid <-> ver = 20190809.
Proof. unfold compatible. cbn [o_AllowOldVersion o_ReadOnly ro_options]. split; [intros (_ & [H|H] & _); [discriminate|exact H]|intros ->; split; [lia|split; [right; reflexivity|left; reflexivity]]]. Qed.
Lemma open_ro d : match OpenReadOnly d with Timeout => False | Ok (d', None) => d' = d | Ok (d', Some ix) => exists b, d = Some b /\ d' = d /\ ix_tx ix = Some (mkTx false b) | Panic => exists b m, d = Some b /\ get b metadataKey = Some m end.
Proof.
  destruct d as [b|]; [|cbn; reflexivity]. unfold OpenReadOnly, openIndex, checkUpdateMetadata. cbn [o_ReadOnly ro_options]. destruct (get b metadataKey) as [m|] eqn:G; [|cbn; reflexivity].
  destruct (check_metadata ro_options m) as [e| |] eqn:EC; cbn [rbind]; [|eauto|].
  - destruct e; cbn; [|reflexivity]. exists b. auto.
  - exfalso. unfold check_metadata in EC. destruct (md_Version m) as [v| |] eqn:EV; cbn [rbind] in EC; [|discriminate|].
    + cbn [ro_options o_AllowOldVersion o_ReadOnly negb andb orb] in EC. destruct (v <? MetadataVersion); [discriminate|]. destruct (MetadataVersion <? v); discriminate.
    + unfold md_Version, at64, go_from, SliceUint64LE in EV. unfold go_slice in EV. destruct (_ && _)%bool in EV; cbn [rbind] in EV; [|discriminate]. unfold go_to, go_slice in EV. destruct (_ && _)%bool in EV; cbn [rbind] in EV; discriminate.
Qed.
Lemma open_metadata_none h p k : no_index (h_db h p) -> open_metadata h p k = fatal h.
Proof.
  unfold open_metadata, no_index. destruct (h_db h p) as [| |[b|]]; try reflexivity. intros [G|(ver & bs & fsid & (gen & G & Hv & Hb & Hf) & Hne)].
  - unfold OpenReadOnly, openIndex, checkUpdateMetadata. rewrite G. reflexivity.
  - unfold OpenReadOnly, openIndex, checkUpdateMetadata. rewrite G. unfold check_metadata. destruct (md_record_fields ver bs fsid gen Hv Hb Hf) as (E1 & _). rewrite E1. cbn [rbind ro_options o_AllowOldVersion o_ReadOnly negb andb orb]. change MetadataVersion with 20190809.
    destruct (ver <? 20190809) eqn:A; [reflexivity|]. destruct (20190809 <? ver) eqn:B; [reflexivity|]. lia.
Qed.
(** what a command that reads the index ends with if the rest of it fails *)
Lemma open_metadata_fails h p k : (forall b gen, k b gen = fatal h) ->
  (open_metadata h p k = fatal h \/ open_metadata h p k = mkResult h ONone Panics) /\ (legible_db (h_db h p) -> open_metadata h p k = fatal h).
Proof.
  intros HK. unfold open_metadata. destruct (h_db h p) as [| |d] eqn:EF; [split; [left|]; reflexivity..|]. pose proof (open_ro d) as HO.
  assert (HL : legible_db (Database d) -> OpenReadOnly d <> Panic).
  { intros HL EP. rewrite EP in HO. destruct HO as (b & m & -> & G). destruct (HL b eq_refl) as [H|(ver & bs & fsid & gen & H & Hv & Hb & Hf)]; [congruence|].
    unfold OpenReadOnly, openIndex, checkUpdateMetadata in EP. rewrite H in EP. unfold check_metadata in EP. destruct (md_record_fields ver bs fsid gen Hv Hb Hf) as (E1 & _). rewrite E1 in EP. cbn [rbind ro_options o_AllowOldVersion o_ReadOnly negb andb orb] in EP. change MetadataVersion with 20190809 in EP.
    destruct (ver <? 20190809); [discriminate|]. destruct (20190809 <? ver); discriminate. }
  destruct (OpenReadOnly d) as [[d' [ix|]]| |]; cbn [on_res snd]; [|split; [left|]; reflexivity|split; [right; reflexivity|intros H; destruct (HL H); reflexivity]|destruct HO].
  destruct HO as (b & _ & _ & ->). rewrite HK. split; [left|]; reflexivity.
Qed.
Lemma size_fails seek bs : snd seek = false \/ (0 <= fst seek < 2^63 /\ 0 <= bs <= 2^48 /\ fst seek < 64 * 2^20 + 100 * bs) -> snd (CheckDeviceSize seek bs) = false.
Proof.
  destruct seek as [size ok]. cbn [fst snd]. unfold CheckDeviceSize. intros [->|(H1 & H2 & H3)]; [reflexivity|]. destruct ok; [|reflexivity]. change SuperInfoOffset2 with (64 * 2^20). rewrite (u64_id size) by lia. rewrite (u64_id (bs * 100)) by lia. rewrite u64_id by lia.
  destruct (size <? bs); [reflexivity|]. replace (size <? 64 * 2^20 + bs * 100) with true by lia. reflexivity.
Qed.
Lemma open_other ok bs id b ver bs0 fsid : has_record b ver bs0 fsid -> (ver <> 20190809 \/ bs0 <> bs mod 2^32 \/ fsid <> id) -> openIndex ok (mkOptions false bs id max64 false) (Some b) = Ok (Some b, None).
Proof.
  intros (gen & G & Hv & Hb & Hf) HN. unfold openIndex, checkUpdateMetadata. rewrite G. unfold check_metadata. destruct (md_record_fields ver bs0 fsid gen Hv Hb Hf) as (E1 & E2 & E3). rewrite E1, E2, E3. cbn [rbind o_AllowOldVersion o_ReadOnly o_BlockSize o_FSID negb andb orb]. change MetadataVersion with 20190809.
  destruct (ver <? 20190809) eqn:A; [reflexivity|]. destruct (20190809 <? ver) eqn:B; [reflexivity|]. change (u32 bs) with (bs mod 2^32). destruct (bs0 =? bs mod 2^32) eqn:C; cbn [negb]; [|reflexivity].
  destruct (bytes_eqb fsid id) eqn:D; cbn [negb]; [|reflexivity]. apply bytes_eqb_eq in D. lia || (exfalso; destruct HN as [H|[H|H]]; [lia|lia|congruence]).
Qed.
Lemma same_host_refl h : same_host h h. Proof. split; [reflexivity|split; reflexivity]. Qed.
Lemma same_set h p d : h_db h p = Database d -> same_host (set_db h p (Database d)) h.
Proof. intros H. split; [|split; reflexivity]. intros q. cbn [set_db h_db]. destruct (bytes_eqb q p) eqn:E; [apply bytes_eqb_eq in E; subst; auto|reflexivity]. Qed.
(** failing without any effect; [clean]: with a message, not a panic *)
Definition fails (h : host) (r : result) : Prop := same_host (r_host r) h /\ r_out r = ONone /\ (r_end r = Exit1 \/ r_end r = Panics).
Definition fails_cleanly (P : Prop) (h : host) (r : result) : Prop := fails h r /\ (P -> r_end r = Exit1).
Lemma fatal_fails P h : fails_cleanly P h (fatal h).
Proof. split; [split; [apply same_host_refl|split; [reflexivity|left; reflexivity]]|reflexivity]. Qed.
Lemma panic_fails (P : Prop) h : ~ P -> fails_cleanly P h (mkResult h ONone Panics).
Proof. intros H. split; [split; [apply same_host_refl|split; [reflexivity|right; reflexivity]]|intros X; destruct (H X)]. Qed.
Lemma opened_fails (P : Prop) h p k : (P -> legible_db (h_db h p)) -> (forall b gen, k b gen = fatal h) -> fails_cleanly P h (open_metadata h p k).
Proof.
  intros HP HK. destruct (open_metadata_fails h p k HK) as [H1 H2]. split.
  - destruct H1 as [->| ->]; (split; [apply same_host_refl|split; [reflexivity|auto]]).
  - intros X. rewrite (H2 (HP X)). reflexivity.
Qed.
Lemma recon_id_fails o g h id a args : ~ (exists t u, id = Some t /\ spells t u /\ length u = 16%nat /\ u <> repeat x00 16) -> run_recon o g h id a args = fatal h.
Proof.
  intros HN. unfold run_recon. destruct id as [t|].
  - destruct (C32_parse (repeat x00 16) t) as [HS _]. change (Set_ (repeat x00 16) t) with (New t) in HS. destruct (New t) as [u ok] eqn:EN. destruct ok; cbn [negb]; [|reflexivity].
    destruct args as [|i [|? ?]]; try reflexivity. destruct (zlen (g_metadata g) =? 0); [reflexivity|]. destruct (proj1 (HS u) eq_refl) as [S L].
    unfold IsZero. destruct (bytes_eqb u (repeat x00 16)) eqn:EZ; [reflexivity|]. exfalso. apply HN. exists t, u. split; [reflexivity|]. split; [exact S|]. split; [exact L|]. intros ->. rewrite bytes_eqb_refl in EZ. discriminate.
  - cbn [negb]. destruct args as [|i [|? ?]]; try reflexivity. destruct (zlen (g_metadata g) =? 0); reflexivity.
Qed.
(** C89.  An invocation that cannot work - wrong arguments, missing options, unreadable image,
    unsuitable metadata file - ends with exit status 1 and leaves everything as it was.
    (Block size 0 and a metadata record cut short make it panic, still without effect.) *)
Theorem C89_unusable : forall o h g c args, unusable h g c args ->
  fails h (btrfscue o h g c args) /\ (g_blockSize g <> 0 -> legible_db (h_db h (g_metadata g)) -> r_end (btrfscue o h g c args) = Exit1).
Proof.
  intros o h g c args HU. set (P := g_blockSize g <> 0 /\ legible_db (h_db h (g_metadata g))).
  assert (HP : P -> legible_db (h_db h (g_metadata g))) by (intros [_ H]; exact H).
  enough (H : fails_cleanly P h (btrfscue o h g c args)) by (destruct H as [H1 H2]; split; [exact H1|intros A B; apply H2; split; assumption]).
  unfold btrfscue. destruct (args_ok c args) eqn:EA; cbn [negb]; [|apply fatal_fails].
  destruct HU as [H|H1 H2|id a -> H|i H1 H2|i dev H0 H1 H2 H3|i dev H0 H1 H2 H3 H4 H5|H1 H2|t u a -> HS HL HO].
  - apply args_spec in EA. contradiction.
  - apply metadata_empty in H2. destruct c as [? ? ? ?|id a| | | |]; [destruct H1| | | | |].
    + unfold run_recon. rewrite H2. destruct (match id with None => _ | Some t => _ end) as [u ok]. destruct ok; cbn [negb]; [|apply fatal_fails]. destruct args as [|? [|? ?]]; apply fatal_fails.
    + unfold run_ls. rewrite H2. apply fatal_fails.
    + unfold run_dump. rewrite H2. apply fatal_fails.
    + unfold run_recover. rewrite H2. destruct args as [|? [|? [|? ?]]]; apply fatal_fails.
    + unfold run_mount. rewrite H2. apply fatal_fails.
  - rewrite recon_id_fails by exact H. apply fatal_fails.
  - destruct c as [? ? ? ?|id a| | | |]; cbn [image_arg] in H1; try discriminate; destruct args as [|x [|y [|? ?]]]; try discriminate; injection H1 as ->.
    + unfold run_identify. rewrite H2. apply fatal_fails.
    + unfold run_recon. rewrite H2. destruct (match id with None => _ | Some t => _ end) as [u ok]. destruct ok; cbn [negb]; [|apply fatal_fails]. destruct (zlen (g_metadata g) =? 0); [apply fatal_fails|]. destruct (IsZero u); apply fatal_fails.
    + unfold run_recover. rewrite H2. destruct (zlen (g_metadata g) =? 0); [apply fatal_fails|]. apply opened_fails; [exact HP|]. intros b gen. reflexivity.
    + unfold run_mount. rewrite H2. destruct (zlen (g_metadata g) =? 0); [apply fatal_fails|]. apply opened_fails; [exact HP|]. intros b gen. reflexivity.
  - pose proof (size_fails (dev_seek dev) (g_blockSize g) (or_introl H3)) as HF. destruct c as [? ? ? ?|id a| | | |]; try destruct H0; cbn [image_arg] in H1; destruct args as [|x [|y [|? ?]]]; try discriminate; injection H1 as ->.
    + unfold run_identify. rewrite H2. unfold IdentifyFS. destruct (CheckDeviceSize (dev_seek dev) (g_blockSize g)) as [sz ok]. cbn [snd] in HF. subst ok. cbn [negb on_res]. apply fatal_fails.
    + unfold run_recon. rewrite H2, HF. destruct (match id with None => _ | Some t => _ end) as [u ok]. destruct ok; cbn [negb]; [|apply fatal_fails]. destruct (zlen (g_metadata g) =? 0); [apply fatal_fails|]. destruct (IsZero u); apply fatal_fails.
  - pose proof (size_fails (dev_seek dev) (g_blockSize g) (or_intror (conj H3 (conj H4 H5)))) as HF. destruct c as [? ? ? ?|id a| | | |]; try destruct H0; cbn [image_arg] in H1; destruct args as [|x [|y [|? ?]]]; try discriminate; injection H1 as ->.
    + unfold run_identify. rewrite H2. unfold IdentifyFS. destruct (CheckDeviceSize (dev_seek dev) (g_blockSize g)) as [sz ok]. cbn [snd] in HF. subst ok. cbn [negb on_res]. apply fatal_fails.
    + unfold run_recon. rewrite H2, HF. destruct (match id with None => _ | Some t => _ end) as [u ok]. destruct ok; cbn [negb]; [|apply fatal_fails]. destruct (zlen (g_metadata g) =? 0); [apply fatal_fails|]. destruct (IsZero u); apply fatal_fails.
  - destruct c as [? ? ? ?|id a| | | |]; try destruct H1.
    + unfold run_ls. destruct (zlen (g_metadata g) =? 0); [apply fatal_fails|]. rewrite open_metadata_none by exact H2. apply fatal_fails.
    + unfold run_dump. destruct (zlen (g_metadata g) =? 0); [apply fatal_fails|]. rewrite open_metadata_none by exact H2. apply fatal_fails.
    + unfold run_recover. destruct args as [|? [|? [|? ?]]]; try apply fatal_fails. destruct (zlen (g_metadata g) =? 0); [apply fatal_fails|]. rewrite open_metadata_none by exact H2. apply fatal_fails.
    + unfold run_mount. destruct (zlen (g_metadata g) =? 0); [apply fatal_fails|]. rewrite open_metadata_none by exact H2. apply fatal_fails.
  - unfold run_recon. destruct (C32_parse (repeat x00 16) t) as [HC _]. change (Set_ (repeat x00 16) t) with (New t) in HC. rewrite (proj2 (HC u) (conj HS HL)). cbn [negb].
    destruct args as [|x [|y ?]]; try apply fatal_fails. destruct (zlen (g_metadata g) =? 0); [apply fatal_fails|]. destruct (IsZero u) eqn:EZ; [apply fatal_fails|]. destruct (h_dev h x) as [dev|]; [|apply fatal_fails]. cbv zeta.
    destruct (snd (CheckDeviceSize (dev_seek dev) (g_blockSize g))) eqn:EC; cbn [negb]; [|apply fatal_fails]. destruct (g_blockSize g =? 0) eqn:EB; [apply panic_fails; intros [B _]; lia|].
    unfold other_index in HO. destruct (h_db h (g_metadata g)) as [| |[b|]] eqn:EF; [destruct HO|apply fatal_fails| |destruct HO]. destruct HO as (ver & bs0 & fsid & HR & HN).
    unfold doScanFS_opts, doScanFS. cbn [so_id]. unfold IsZero in EZ. rewrite EZ. destruct (CheckDeviceSize (dev_seek dev) (g_blockSize g)) as [sz ok]. cbn [snd] in EC. subst ok. cbn [negb]. rewrite EB. rewrite (open_other (o_okopen o) (g_blockSize g) u b ver bs0 fsid HR HN).
    split; [split; [apply same_set; exact EF|split; [reflexivity|left; reflexivity]]|reflexivity].
Qed.
(** what any invocation may touch: recon the metadata file it is given, recover files, the other commands nothing at all *)
Lemma on_res_host {A} h (r : Res A) k : (forall a, r_host (k a) = h) -> r_host (on_res h r k) = h.
Proof. intros H. destruct r; cbn [on_res r_host]; auto. Qed.
Lemma open_host h p k : (forall b gen, r_host (k b gen) = h) -> r_host (open_metadata h p k) = h.
Proof. intros H. unfold open_metadata. destruct (h_db h p); try reflexivity. apply on_res_host. intros [d' [ix|]]; cbn [snd]; [|reflexivity]. destruct (ix_tx ix); [apply H|reflexivity]. Qed.
Theorem C89_touches : forall o h g c args, touches g c h (r_host (btrfscue o h g c args)).
Proof.
  intros o h g c args. unfold btrfscue. destruct (args_ok c args); cbn [negb]; [|destruct c; cbn; auto].
  destruct c as [wish minb maxb mino|id a|rec ino| |cl|]; cbn [touches].
  - unfold run_identify. destruct args as [|x [|? ?]]; try reflexivity. destruct (h_dev h x); [|reflexivity]. apply on_res_host. intros [rows|]; reflexivity.
  - unfold run_recon. destruct (match id with None => _ | Some t => _ end) as [u ok]. destruct ok; cbn [negb]; [|cbn; auto]. destruct args as [|x [|? ?]]; try (cbn; auto; fail). destruct (zlen (g_metadata g) =? 0); [cbn; auto|]. destruct (IsZero u); [cbn; auto|]. destruct (h_dev h x) as [dev|]; [|cbn; auto]. cbv zeta.
    destruct (negb (snd (CheckDeviceSize (dev_seek dev) (g_blockSize g)))); [cbn; auto|]. destruct (g_blockSize g =? 0); [cbn; auto|].
    assert (HX : forall d, let h' := set_db h (g_metadata g) (Database d) in (forall p, p <> g_metadata g -> h_db h' p = h_db h p) /\ (forall p, h_dev h' p = h_dev h p) /\ h_world h' = h_world h).
    { intros d h'. split; [|split; reflexivity]. intros p Hp. cbn [h' set_db h_db]. destruct (bytes_eqb p (g_metadata g)) eqn:E; [apply bytes_eqb_eq in E; contradiction|reflexivity]. }
    destruct (h_db h (g_metadata g)); [|cbn; auto|].
    + destruct (doScanFS_opts _ _ _ _ _ _ _) as [d' st]. destruct st; apply HX.
    + destruct (doScanFS_opts _ _ _ _ _ _ _) as [d' st]. destruct st; apply HX.
  - unfold run_ls. destruct (zlen (g_metadata g) =? 0); [reflexivity|]. apply open_host. intros b gen. apply on_res_host. intros [[files missing] dirs]. reflexivity.
  - unfold run_dump. destruct (zlen (g_metadata g) =? 0); [reflexivity|]. apply open_host. intros b gen. apply on_res_host. reflexivity.
  - unfold run_recover. destruct args as [|x [|y [|? ?]]]; try (cbn; auto; fail). destruct (zlen (g_metadata g) =? 0); [cbn; auto|]. unfold open_metadata. destruct (h_db h (g_metadata g)) as [| |d]; try (cbn; auto; fail).
    destruct (OpenReadOnly d) as [[d' [ix|]]| |]; cbn [on_res snd]; try (cbn; auto; fail). destruct (ix_tx ix); [|cbn; auto]. destruct (h_dev h x); [|cbn; auto]. destruct (doRecoverFiles _ _ _ _ _ _ _ _) as [w r]. cbn; auto.
  - unfold run_mount. destruct (zlen (g_metadata g) =? 0); [reflexivity|]. apply open_host. intros b gen. cbv zeta. destruct args as [|x [|y [|? ?]]]; try (destruct (o_okmount o); reflexivity). destruct (h_dev h x); [|reflexivity]. destruct (o_okmount o); reflexivity.
Qed.
Print Assumptions C89_unusable. Print Assumptions C89_touches.
