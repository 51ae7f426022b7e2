(** C85: recover and damaged items. *)
From Verif Require Import Go GoProofs Layout LayoutProofs SpecLayout StructProofs PropsLayout KeyFmt Bolt Store IoUtil Fs Recover RecoverProofs SpecFs PathProofs PropsRecoverPaths PropsRecoverDfs Forward SpecSurvive.
From Coq Require Import List ZifyBool ZifyNat ZifyN.
Ltac Zify.zify_post_hook ::= Z.div_mod_to_equations.

(** ** accessors and bytes *)
Lemma field_bytes s off n : slice_wf s -> (Z.of_nat off + Z.of_nat n <= blen s) -> bytes_at (Z.of_nat off) (Z.of_nat n) s = firstn n (skipn off (sbytes s)).
Proof.
  intros W H. unfold blen in H. rewrite zlen_sbytes in H by exact W. unfold bytes_at, sbytes. rewrite !Nat2Z.id. rewrite skipn_firstn_comm, firstn_firstn. f_equal. lia.
Qed.
Lemma f64_bytes s off : slice_wf s -> Z.of_nat off + 8 <= blen s -> at64 (Z.of_nat off) s = Ok (fld s off 8).
Proof.
  intros W H. rewrite at64_exact by exact W. assert (R : readable (Z.of_nat off) 8 s = true) by (apply readable_iff; unfold blen in H; rewrite zlen_sbytes in H by exact W; destruct W; unfold scap; lia).
  rewrite R. unfold fld. rewrite <- (field_bytes s off 8 W) by lia. reflexivity.
Qed.
Lemma f16_bytes s off : slice_wf s -> Z.of_nat off + 2 <= blen s -> at16 (Z.of_nat off) s = Ok (fld s off 2).
Proof.
  intros W H. rewrite at16_exact by exact W. assert (R : readable (Z.of_nat off) 2 s = true) by (apply readable_iff; unfold blen in H; rewrite zlen_sbytes in H by exact W; destruct W; unfold scap; lia).
  rewrite R. unfold fld. rewrite <- (field_bytes s off 2 W) by lia. reflexivity.
Qed.
Lemma f8_bytes s off : slice_wf s -> Z.of_nat off + 1 <= blen s -> at8 (Z.of_nat off) s = Ok (fld s off 1).
Proof.
  intros W H. rewrite at8_exact. pose proof (field_bytes s off 1 W H) as HB. unfold blen in H. rewrite zlen_sbytes in H by exact W. replace ((0 <=? Z.of_nat off) && (Z.of_nat off <? s_len s)) with true by lia.
  unfold fld. rewrite <- HB. unfold bytes_at. rewrite Nat2Z.id. change (Z.to_nat (Z.of_nat 1)) with 1%nat.
  assert (HL : (off < length (s_arr s))%nat) by (destruct W; unfold zlen in *; lia). clear -HL. revert off HL. induction (s_arr s) as [|x l IH]; intros [|off] HL; cbn [length] in HL; try lia.
  - cbn [skipn firstn nth le_decode]. f_equal. lia.
  - cbn [skipn nth]. apply IH. lia.
Qed.
Lemma fld_range s off n : 0 <= fld s off n < 256 ^ Z.of_nat n.
Proof.
  unfold fld. pose proof (le_decode_range (firstn n (skipn off (sbytes s)))) as H. assert (zlen (firstn n (skipn off (sbytes s))) <= Z.of_nat n) by (unfold zlen; rewrite firstn_length; lia).
  assert (256 ^ zlen (firstn n (skipn off (sbytes s))) <= 256 ^ Z.of_nat n) by (apply Z.pow_le_mono_r; lia). lia.
Qed.
Lemma whole_name s : dir_item_whole s -> exists n, DirItem_Name s = Ok n.
Proof.
  intros [W H]. pose proof (fld_range s 27 2) as HR. change (256 ^ Z.of_nat 2) with 65536 in HR. unfold DirItem_Name, name_at. change dirItemNameLen with (Z.of_nat 27). rewrite f16_bytes by (try exact W; lia). cbn [rbind].
  change dirItemName with 30. unfold clampName. unfold blen in H. rewrite zlen_sbytes in H by exact W. destruct W as [W1 W2].
  assert (E : go_slice s 30 (30 + (if 255 <? fld s 27 2 then 255 else fld s 27 2)) = Ok (mkSlice (skipn 30 (s_arr s)) (30 + (if 255 <? fld s 27 2 then 255 else fld s 27 2) - 30))).
  { apply (go_slice_ok s 30); unfold scap; destruct (255 <? fld s 27 2) eqn:EL; lia. }
  rewrite E. cbn [rbind]. eexists. reflexivity.
Qed.
Lemma whole_type s : dir_item_whole s -> DirItem_Type s = Ok (fld s 29 1).
Proof. intros [W H]. pose proof (fld_range s 27 2). change dirItemType with (Z.of_nat 29). apply (f8_bytes s 29); [exact W|lia]. Qed.
Lemma whole_loc s : dir_item_whole s -> DirItem_Location s = Ok (mkKey (fld s 0 8) (fld s 8 1) (fld s 9 8)).
Proof.
  intros [W H]. pose proof (fld_range s 27 2). unfold DirItem_Location. change dirItemLocation with 0. rewrite atKey_parts; [|exact W|destruct W; lia].
  change 0 with (Z.of_nat 0) at 1. rewrite f64_bytes by (try exact W; lia). cbn [rbind]. change (at8 (0 + 8) s) with (at8 (Z.of_nat 8) s). rewrite f8_bytes by (try exact W; lia). cbn [rbind].
  change (at64 (0 + 9) s) with (at64 (Z.of_nat 9) s). rewrite f64_bytes by (try exact W; lia). reflexivity.
Qed.
(** for an item without slack capacity: whole exactly if the name can be read *)
Lemma name_whole s n : slice_wf s -> scap s = s_len s -> DirItem_Name s = Ok n -> dir_item_whole s.
Proof.
  intros W HC H. split; [exact W|]. unfold blen. rewrite zlen_sbytes by exact W. unfold DirItem_Name, name_at in H. change dirItemNameLen with (Z.of_nat 27) in H. apply rbind_ok in H as (l & HL & H). apply rbind_ok in H as (r & HR & _).
  apply go_slice_inv in HR as (_ & HR & _). rewrite at16_exact in HL by exact W. destruct (readable (Z.of_nat 27) 2 s) eqn:ER; [|discriminate]. apply readable_iff in ER as [_ ER].
  assert (E : fld s 27 2 = l). { unfold fld. rewrite <- (field_bytes s 27 2 W) by (unfold blen; rewrite zlen_sbytes by exact W; lia). change (Z.of_nat 2) with 2. congruence. }
  rewrite E. change dirItemName with 30 in HR. unfold clampName in HR. destruct (255 <? l) eqn:EL; lia.
Qed.

(** ** no abort *)
Definition np {A} (m : M A) : Prop := forall w, snd (m w) <> OPanic.
Lemma np_ret {A} (a : A) : np (ret a). Proof. intros w. discriminate. Qed.
Lemma np_emit e : np (emit e). Proof. intros w. discriminate. Qed.
Lemma np_bind {A B} (m : M A) (f : A -> M B) : np m -> (forall a, np (f a)) -> np (bind m f).
Proof. intros Hm Hf w. unfold bind. specialize (Hm w). destruct (m w) as [w1 [a| | |]]; cbn [snd] in *; [apply Hf|congruence|discriminate|discriminate]. Qed.
Lemma np_ok {A B} (a : A) (r : Res A) (f : A -> M B) : r = Ok a -> np (f a) -> np (bind (lift r) f).
Proof. intros -> Hf w. unfold bind, lift. apply Hf. Qed.
Lemma np_syscall {A} E k s (eff : fs -> fs * option A) part : np (syscall E k s eff part).
Proof. intros w. unfold syscall. destruct (e_faults _ _ _); [destruct (eff _)|..]; cbn [snd]; discriminate. Qed.
Lemma np_read dev n o : np (devRead dev n o).
Proof. intros w. unfold devRead. destruct (dev n o). cbn [snd]. discriminate. Qed.
Lemma np_warn (ok : bool) k p : np (if ok then ret tt else emit (EvWarn k p)).
Proof. destruct ok; [apply np_ret|apply np_emit]. Qed.
Lemma np_mkall_loop E : forall fuel s, np (MkdirAll_loop fuel E s).
Proof.
  induction fuel as [|fuel IH]; intros s; [intros w; discriminate|]. cbn [MkdirAll_loop]. apply np_bind; [apply np_syscall|].
  assert (HT : np (ok <~ match parent_of s with Some p => MkdirAll_loop fuel E p | None => ret true end ;;
        if ok : bool then r <~ Mkdir E s ;; match r with Some _ => ret true | None => k <~ Lstat E s ;; ret (is_kdir k) end else ret false)).
  { apply np_bind; [destruct (parent_of s) as [p|]; [apply IH|apply np_ret]|].
    intros []; [|apply np_ret]. apply np_bind; [apply np_syscall|]. intros []; [apply np_ret|]. apply np_bind; [apply np_syscall|]. intros k. apply np_ret. }
  intros [[| |]|]; [apply np_ret|apply np_ret|apply np_ret|exact HT].
Qed.
Lemma np_mkall E s : np (MkdirAll E s). Proof. apply np_mkall_loop. Qed.

Section Whole.
  Variables (cfuel : nat) (E : env) (dev : readerAt) (q : queries) (clobber : bool).
  Lemma np_copy h path nb so fo : forall fuel c, np (copy_loop fuel E dev h path nb so fo c).
  Proof.
    induction fuel as [|fuel IH]; intros c; [intros w; discriminate|]. cbn [copy_loop]. destruct (c <? nb); [|apply np_ret]. cbv zeta. apply np_bind; [apply np_read|]. intros [d e]. apply np_bind.
    - destruct (0 <? zlen d); [|apply np_ret]. apply np_bind; [apply np_syscall|intros r; apply np_ret].
    - intros []; cbn [negb]; [|apply np_ret]. destruct e as [[]|]; [destruct (_ <? nb); apply np_ret|apply np_ret|apply IH].
  Qed.
  Lemma whole_inline e : extent_whole q e -> FileExtentItem_IsInline e = Ok (fld e 20 1 =? 0).
  Proof. intros (W & H & _). unfold FileExtentItem_IsInline, FileExtentItem_Type. change fileExtentItemType with (Z.of_nat 20). rewrite f8_bytes by (try exact W; lia). reflexivity. Qed.
  Lemma whole_data e : extent_whole q e -> fld e 20 1 = 0 -> exists d, FileExtentItem_Data e = Ok d.
  Proof.
    intros (W & H & HI & _) E0. destruct (HI E0) as [H1 H2]. pose proof (fld_range e 8 8) as HR. unfold FileExtentItem_Data, FileExtentItem_RAMBytes. change fileExtentItemRAMBytes with (Z.of_nat 8). rewrite f64_bytes by (try exact W; lia). cbn [rbind]. cbv zeta.
    assert (EI : i64 (fld e 8 8) = fld e 8 8) by (unfold i64; lia). rewrite EI. change DefaultBlockSize with 16384. change fileExtentItemDiskByteNr with 21. set (l := if 16384 <? fld e 8 8 then 16384 else fld e 8 8).
    assert (HL : 0 <= l /\ 21 + l <= blen e) by (subst l; destruct (16384 <? fld e 8 8) eqn:EL; lia). clearbody l. unfold blen in HL. rewrite zlen_sbytes in HL by exact W. destruct W as [W1 W2].
    rewrite go_slice_ok by (unfold scap; lia). cbn [rbind]. eexists. reflexivity.
  Qed.
  Lemma whole_disk e : extent_whole q e -> fld e 20 1 <> 0 -> FileExtentItem_NumBytes e = Ok (fld e 45 8) /\ FileExtentItem_DiskByteNr e = Ok (fld e 21 8) /\ FileExtentItem_Offset e = Ok (fld e 37 8).
  Proof.
    intros (W & _ & _ & HD) E0. destruct (HD E0) as (H & _). split; [|split].
    - unfold FileExtentItem_NumBytes. change fileExtentItemNumBytes with (Z.of_nat 45). apply f64_bytes; [exact W|lia].
    - unfold FileExtentItem_DiskByteNr. change fileExtentItemDiskByteNr with (Z.of_nat 21). apply f64_bytes; [exact W|lia].
    - unfold FileExtentItem_Offset. change fileExtentItemOffset with (Z.of_nat 37). apply f64_bytes; [exact W|lia].
  Qed.
  Lemma np_extents h path ii fin : fin = Ok tt -> (forall size, ii = Some size -> 0 <= size < 2^63) -> forall l,
    (forall k e, In (k, e) l -> extent_whole q e /\ (fld e 20 1 = 0 -> 0 <= KOffset (ik_Key k) < 2^63)) -> np (extents_loop cfuel E dev q h path ii l fin).
  Proof.
    intros HF HS. induction l as [|[k e] l IH]; intros HL; cbn [extents_loop]; [apply (np_ok tt); [exact HF|apply np_ret]|]. cbv zeta. destruct (HL k e (or_introl eq_refl)) as [HW HK].
    apply (np_ok _ _ _ (whole_inline e HW)). apply np_bind; [|intros []; [apply IH; intros k' e' He; apply HL; right; exact He|apply np_ret]]. destruct (fld e 20 1 =? 0) eqn:EI.
    - apply Z.eqb_eq in EI. specialize (HK EI). unfold inline_extent. destruct (whole_data e HW EI) as (d & ED). apply (np_ok _ _ _ ED). cbv zeta.
      set (lim := match ii with Some fileSize => if i64 fileSize <? i64 (i64 (KOffset (ik_Key k)) + zlen d) then i64 (u64 (fileSize - KOffset (ik_Key k))) else zlen d | None => zlen d end).
      assert (HLm : lim <= zlen d).
      { subst lim. destruct ii as [size|]; [|lia]. specialize (HS size eq_refl). assert (0 <= zlen d) by (unfold zlen; lia). assert (HD16 : zlen d <= 16384).
        { clear -ED. unfold FileExtentItem_Data in ED. apply rbind_ok in ED as (r & _ & ED). cbv zeta in ED. apply rbind_ok in ED as (s & HS & ED). apply go_slice_inv in HS as (H1 & _ & HE). change DefaultBlockSize with 16384 in *. change fileExtentItemDiskByteNr with 21 in *.
          assert (E2 : d = sbytes s) by congruence. subst d s. unfold sbytes, zlen. cbn [s_len s_arr]. rewrite firstn_length. destruct (16384 <? i64 r) eqn:EL; lia. }
        unfold i64, u64. destruct (_ <? _) eqn:EL; lia. }
      clearbody lim. destruct (0 <? lim) eqn:E0; [|apply np_ret]. unfold go_to. assert (EG : go_slice (sl d) 0 lim = Ok (mkSlice (skipn (Z.to_nat 0) (s_arr (sl d))) (lim - 0))) by (apply go_slice_ok; [lia|rewrite scap_sl; lia]).
      apply (np_ok _ _ _ EG). apply np_bind; [apply np_syscall|intros r; apply np_ret].
    - assert (EN : fld e 20 1 <> 0) by lia. destruct (whole_disk e HW EN) as (D1 & D2 & D3). destruct HW as (W & _ & _ & HD). destruct (HD EN) as (_ & HH & HP). unfold disk_extent. apply (np_ok _ _ _ D1). apply (np_ok _ _ _ D2).
      destruct (fld e 21 8 =? 0) eqn:E0.
      + pose proof (fld_range e 45 8). assert (EM : make_bytes (fld e 45 8) = Ok (zeros (fld e 45 8))) by (unfold make_bytes; replace ((0 <=? fld e 45 8) && (fld e 45 8 <=? 2^48)) with true by lia; reflexivity).
        apply (np_ok _ _ _ EM). apply np_bind; [apply np_syscall|intros r; apply np_ret].
      + destruct (HP ltac:(lia)) as ([dv ph] & EP). apply (np_ok _ _ _ EP). apply (np_ok _ _ _ D3). apply np_copy.
  Qed.
  Lemma np_file o i path : file_whole q o i -> np (recoverFile cfuel E dev q clobber o i path).
  Proof.
    intros (HE & HX & HI). unfold recoverFile. apply np_bind; [apply np_syscall|]. intros k. destruct (_ && _); [apply np_ret|].
    assert (G : forall ii, (forall size, ii = Some size -> 0 <= size < 2^63) -> np (h <~ OpenFile E path ;; match h with | None => ret false | Some h => let xs := q_extents q o i in
        match st_items xs with
        | [] => _ <~ lift (st_end xs) ;; _ <~ (match ii with Some size => FTruncate E h path (i64 size) | None => ret None end) ;; ret true
        | l => f <~ extents_loop cfuel E dev q h path ii l (st_end xs) ;;
            match f with
            | Returned ok => ret ok
            | Go_on => match ii with Some size => r <~ FTruncate E h path (i64 size) ;; ret (is_some r) | None => ret true end
            end
        end end)).
    { intros ii HS. apply np_bind; [apply np_syscall|]. intros [h|]; [|apply np_ret]. cbv zeta. destruct (st_items (q_extents q o i)) as [|x0 l].
      - apply (np_ok _ _ _ HE). apply np_bind; [destruct ii; [apply np_syscall|apply np_ret]|intros _; apply np_ret].
      - apply np_bind; [apply np_extents; [exact HE|exact HS|exact HX]|]. intros []; [|apply np_ret]. destruct ii; [|apply np_ret]. apply np_bind; [apply np_syscall|intros r; apply np_ret]. }
    destruct HI as [HI|(it & HI & W & H24 & H63)]; apply (np_ok _ _ _ HI).
    - apply (np_ok None); [reflexivity|]. exact (G None ltac:(discriminate)).
    - assert (ES : InodeItem_Size it = Ok (fld it 16 8)) by (unfold InodeItem_Size; change inodeItemSize with (Z.of_nat 16); apply f64_bytes; [exact W|lia]).
      apply (np_ok (Some (fld it 16 8))); [rewrite ES; reflexivity|]. apply (G (Some (fld it 16 8))). intros size [= <-]. pose proof (fld_range it 16 8). lia.
  Qed.
  Lemma np_link o i path : link_whole q o i -> np (recoverSymlink E dev q clobber o i path).
  Proof.
    intros HL. unfold recoverSymlink. apply np_bind; [apply np_syscall|]. intros k. destruct (_ && _); [apply np_ret|]. apply np_bind; [destruct (is_some k); [apply np_syscall|apply np_ret]|]. intros _.
    destruct HL as [HL|(e & HL & HW & HN)]; apply (np_ok _ _ _ HL); [apply np_ret|]. apply np_bind; [|intros [t|]; [|apply np_ret]; apply np_bind; [apply np_syscall|intros r; apply np_ret]].
    unfold link_target. apply (np_ok _ _ _ (whole_inline e HW)). destruct (fld e 20 1 =? 0) eqn:EI.
    - destruct (whole_data e HW ltac:(lia)) as (d & ED). apply (np_ok _ _ _ ED). apply np_ret.
    - assert (EN : fld e 20 1 <> 0) by lia. specialize (HN EN). destruct (whole_disk e HW EN) as (D1 & D2 & D3). destruct HW as (W & _ & _ & HD). destruct (HD EN) as (_ & _ & HP).
      apply (np_ok _ _ _ D2). destruct (0 <? fld e 21 8) eqn:E0; [|apply np_ret]. destruct (HP ltac:(lia)) as ([dv ph] & EP). apply (np_ok _ _ _ EP). apply (np_ok _ _ _ D3). apply (np_ok _ _ _ D1).
      pose proof (fld_range e 45 8). assert (EM : make_bytes (fld e 45 8) = Ok (zeros (fld e 45 8))) by (unfold make_bytes; replace ((0 <=? fld e 45 8) && (fld e 45 8 <=? 2^48)) with true by lia; reflexivity).
      apply (np_ok _ _ _ EM). apply np_bind; [apply np_read|]. intros [d [er|]]; apply np_ret.
  Qed.
  (** what the loop makes of a whole item *)
  Lemma classify_whole o dest s : dir_item_whole s -> exists a, classify o dest s = Ok a /\
    match a with
    | ASkip => True
    | ADir o' d' _ => names_dir o s (o', d')
    | AFile i _ => fld s 8 1 <> 132 /\ fld s 29 1 = 1 /\ i = fld s 0 8
    | ALink i _ => fld s 8 1 <> 132 /\ fld s 29 1 = 7 /\ i = fld s 0 8
    end.
  Proof.
    intros HW. destruct (whole_name s HW) as (n & EN). pose proof (whole_type s HW) as ET. pose proof (whole_loc s HW) as EL.
    destruct (classify o dest s) as [a| |] eqn:EC.
    - exists a. split; [reflexivity|]. destruct a as [|o' d' p|i p|i p]; [exact Logic.I|exact (classify_names o dest s o' d' p EC)|..];
      unfold classify in EC; rewrite EN in EC; cbn [rbind] in EC; destruct (skip_name n); try discriminate; cbv zeta in EC; unfold DirItem_IsDir, DirItem_IsSubvolume in EC; rewrite ET, EL in EC; cbn [rbind KType ObjectID] in EC;
      change FtDir with 2 in EC; change RootItemKey with 132 in EC; change FtRegFile with 1 in EC; change FtSymlink with 7 in EC;
      (destruct (fld s 29 1 =? 2); cbn [rbind] in EC; [destruct (fld s 8 1 =? 132); discriminate|]); destruct (fld s 8 1 =? 132) eqn:E1; cbn [rbind] in EC; try discriminate;
      destruct (fld s 29 1 =? 1) eqn:E2; try discriminate; try (destruct (fld s 29 1 =? 7) eqn:E3; try discriminate); (split; [lia|split; [lia|congruence]]).
    - exfalso. unfold classify in EC. rewrite EN in EC. cbn [rbind] in EC. destruct (skip_name n); try discriminate; cbv zeta in EC; unfold DirItem_IsDir, DirItem_IsSubvolume in EC; rewrite ET, EL in EC; cbn [rbind KType] in EC.
      destruct (fld s 29 1 =? FtDir); cbn [rbind] in EC; [destruct (_ =? RootItemKey); discriminate|]. destruct (fld s 8 1 =? RootItemKey); cbn [rbind] in EC; try discriminate. destruct (fld s 29 1 =? FtRegFile); try discriminate. destruct (fld s 29 1 =? FtSymlink); discriminate.
    - exfalso. exact (classify_nt _ _ _ EC).
  Qed.
  Hypothesis HV : volume_whole q.
  Lemma np_items rec owner dest d : reachable q (owner, d) ->
    (forall o d p v, reachable q (o, d) -> np (rec o d p v)) ->
    forall l v, incl l (st_items (q_dirItems q owner d)) -> np (items_loop rec cfuel E dev q clobber owner dest l v).
  Proof.
    intros HR HN. induction l as [|[k di] l IH]; intros v HL; cbn [items_loop]; [apply np_ret|].
    assert (Hin : In (k, di) (st_items (q_dirItems q owner d))) by (apply HL; left; reflexivity).
    destruct (proj2 (proj2 HV owner d HR) k di Hin) as (HW & HF & HS). destruct (classify_whole owner dest di HW) as (a & EA & HA). apply (np_ok _ _ _ EA).
    apply np_bind; [|intros v'; apply IH; intros x Hx; apply HL; right; exact Hx]. destruct a as [|o' d' p|i p|i p].
    - apply np_ret.
    - apply np_bind; [apply HN|intros [v' ok]; apply np_bind; [apply np_warn|intros _; apply np_ret]]. apply (reach_edge q (owner, d)); [exact HR|]. exists (k, di). auto.
    - destruct HA as (H1 & H2 & ->). apply np_bind; [apply np_file, HF; assumption|intros ok; apply np_bind; [apply np_warn|intros _; apply np_ret]].
    - destruct HA as (H1 & H2 & ->). apply np_bind; [apply np_link, HS; assumption|intros ok; apply np_bind; [apply np_warn|intros _; apply np_ret]].
  Qed.
  Lemma np_dir : forall fuel o d dest v, reachable q (o, d) -> np (recoverDir fuel cfuel E dev q clobber o d dest v).
  Proof.
    induction fuel as [|fuel IH]; intros o d dest v HR; [intros w; discriminate|]. cbn [recoverDir]. destruct (key_in _ v); [apply np_ret|]. cbv zeta. apply np_bind; [apply np_mkall|]. intros []; cbn [negb]; [|apply np_ret].
    apply np_bind; [apply np_emit|]. intros _. apply (np_ok _ _ _ (proj1 (proj2 HV o d HR))). apply np_bind; [|intros v'; apply np_ret]. apply (np_items _ o dest d HR); [exact IH|apply incl_refl].
  Qed.
  Lemma np_subvols fuel dest : forall l v, incl l (st_items (q_subvolumes q)) -> np (subvols_loop fuel cfuel E dev q clobber dest l (st_end (q_subvolumes q)) v).
  Proof.
    induction l as [|[k s] l IH]; intros v HL; cbn [subvols_loop]; [apply (np_ok _ _ _ (proj1 HV)), np_ret|]. cbv zeta. apply np_bind; [|intros v'; apply IH; intros x Hx; apply HL; right; exact Hx].
    destruct (key_in _ v); [apply np_ret|]. apply np_bind; [|intros [v' ok]; apply np_bind; [apply np_warn|intros _; apply np_ret]]. apply np_dir. apply reach_start. right. exists (k, s). split; [apply HL; left; reflexivity|reflexivity].
  Qed.
  Lemma np_recover fuel dest : np (doRecoverFiles fuel cfuel E dev q clobber dest).
  Proof.
    unfold doRecoverFiles. apply np_bind; [apply np_mkall|]. intros []; cbn [negb]; [|apply np_bind; [apply np_emit|intros _; apply np_ret]].
    apply np_bind; [apply np_dir, reach_start; left; reflexivity|]. intros [v ok]. apply np_bind; [apply np_warn|]. intros _. apply np_bind; [apply np_subvols, incl_refl|intros v'; apply np_ret].
  Qed.
End Whole.
(** C85.  Whatever the directory graph, the destination and its failures and the device: if all items are whole, the
    command ends by itself or is killed. *)
Theorem C85_completes_partial : forall E dev b gen rfuel clobber dest w fuel cfuel, let q := ix_queries rfuel b gen in
  makes_progress dev -> advances b -> volume_whole q ->
  (1 + length b < rfuel)%nat -> ((1 + 2 * length b) * (1 + length b) < fuel)%nat -> 2^64 < Z.of_nat cfuel ->
  exists r, snd (doRecoverFiles fuel cfuel E dev q clobber dest w) = r /\ (r = OCrash \/ exists x, r = Ret x).
Proof.
  intros E dev b gen rfuel clobber dest w fuel cfuel q HD HA HV HR HF HC. pose proof (C50_terminates_index E dev b gen rfuel clobber dest w fuel cfuel HD (advances_answers b HA rfuel gen HR) HF HC) as HT. fold q in HT. pose proof (np_recover cfuel E dev q clobber HV fuel dest w) as HP.
  eexists. split; [reflexivity|]. destruct (snd (doRecoverFiles fuel cfuel E dev q clobber dest w)) as [x| | |]; [right; exists x; reflexivity|congruence|left; reflexivity|congruence].
Qed.
Print Assumptions C85_completes_partial.

(** ** the converse: a command that ended has met whole items only *)
Section OnlyIf.
  Variables (cfuel : nat) (E : env) (dev : readerAt) (q : queries) (clobber : bool).
  Definition read_ok (k : Z * Z) : Prop := st_end (q_dirItems q (fst k) (snd k)) = Ok tt /\ forall e, In e (st_items (q_dirItems q (fst k) (snd k))) -> exists n, DirItem_Name (snd e) = Ok n.
  (** a step that returned has listed directories with readable items only *)
  Definition clean {A} (m : M A) : Prop := forall w w' a, m w = (w', Ret a) -> exists evs, w_log w' = evs ++ w_log w /\ forall k, In k (listed evs) -> read_ok k.
  Lemma clean_quiet {A} (m : M A) : keeps (logs quiet) m -> clean m.
  Proof. intros HK w w' a H. destruct (HK _ _ _ H) as (evs & L & F). exists evs. split; [exact L|]. rewrite (quiet_listed _ F). intros k []. Qed.
  Lemma clean_ret {A} (a : A) : clean (ret a).
  Proof. intros w w' x H. unfold ret in H. exists []. split; [|intros k []]. cbn [app]. congruence. Qed.
  Lemma clean_bind {A B} (m : M A) (f : A -> M B) : clean m -> (forall a, clean (f a)) -> clean (bind m f).
  Proof.
    intros Hm Hf w w' b H. unfold bind in H. destruct (m w) as [w1 [a| | |]] eqn:EM; try discriminate. destruct (Hm _ _ _ EM) as (e1 & L1 & C1). destruct (Hf a _ _ _ H) as (e2 & L2 & C2).
    exists (e2 ++ e1). rewrite L2, L1, app_assoc. split; [reflexivity|]. intros k. rewrite listed_app. intros Hk. apply in_app_or in Hk as [Hk|Hk]; auto.
  Qed.
  Lemma clean_lift {A B} (r : Res A) (f : A -> M B) : (forall a, r = Ok a -> clean (f a)) -> clean (bind (lift r) f).
  Proof. intros Hf w w' b H. unfold bind, lift in H. destruct r as [a| |]; try discriminate. exact (Hf a eq_refl _ _ _ H). Qed.
  Lemma clean_warn (ok : bool) k p : clean (if ok then ret tt else emit (EvWarn k p)).
  Proof. destruct ok; [apply clean_ret|]. intros w w' a H. unfold emit in H. exists [EvWarn k p]. split; [|intros x []]. assert (EW : w' = mkWorld (w_fs w) (w_ops w) (EvWarn k p :: w_log w)) by congruence. rewrite EW. reflexivity. Qed.
  Lemma classify_name o dest di a : classify o dest di = Ok a -> exists n, DirItem_Name di = Ok n.
  Proof. unfold classify. intros H. apply rbind_ok in H as (n & H & _). exists n. exact H. Qed.
  Lemma items_clean rec owner dest : (forall o d p v, clean (rec o d p v)) -> forall l v, clean (items_loop rec cfuel E dev q clobber owner dest l v) /\
    forall w w' a, items_loop rec cfuel E dev q clobber owner dest l v w = (w', Ret a) -> forall e, In e l -> exists n, DirItem_Name (snd e) = Ok n.
  Proof.
    intros HR. induction l as [|[k di] l IH]; intros v; cbn [items_loop]; [split; [apply clean_ret|intros w w' a _ e []]|]. split.
    - apply clean_lift. intros a _. apply clean_bind; [|intros v'; apply IH]. destruct a as [|o d p|i p|i p]; [apply clean_ret| | |].
      + apply clean_bind; [apply HR|]. intros [v' ok]. apply clean_bind; [apply clean_warn|intros _; apply clean_ret].
      + apply clean_bind; [apply clean_quiet, quiet_file|]. intros ok. apply clean_bind; [apply clean_warn|intros _; apply clean_ret].
      + apply clean_bind; [apply clean_quiet, quiet_link|]. intros ok. apply clean_bind; [apply clean_warn|intros _; apply clean_ret].
    - intros w w' x H. unfold bind at 1, lift at 1 in H. destruct (classify owner dest di) as [a| |] eqn:EC; try discriminate. unfold bind at 1 in H.
      match type of H with (let (_, _) := ?m w in _) = _ => destruct (m w) as [w1 [v1| | |]] end; try discriminate.
      intros e [<-|He]; [exact (classify_name _ _ _ _ EC)|]. exact (proj2 (IH v1) _ _ _ H e He).
  Qed.
  Lemma dir_clean : forall fuel o d dest v, clean (recoverDir fuel cfuel E dev q clobber o d dest v).
  Proof.
    induction fuel as [|fuel IH]; intros o d dest v; [intros w w' a H; discriminate|]. cbn [recoverDir]. destruct (key_in _ v); [apply clean_ret|]. cbv zeta. apply clean_bind; [apply clean_quiet, quiet_mkall|]. intros []; cbn [negb]; [|apply clean_ret].
    intros w w' a H. unfold bind at 1, emit at 1 in H. unfold bind at 1, lift at 1 in H. destruct (st_end (q_dirItems q o d)) as [u| |] eqn:EE; try discriminate. unfold bind at 1 in H.
    match type of H with (let (_, _) := ?m ?w in _) = _ => set (w1 := w) in H; destruct (m w1) as [w2 [v1| | |]] eqn:EI end; try discriminate.
    destruct (items_clean _ o dest IH (st_items (q_dirItems q o d)) ((o, d) :: v)) as [C1 C2]. destruct (C1 _ _ _ EI) as (evs & L & HC). specialize (C2 _ _ _ EI).
    unfold ret in H. assert (EW : w' = w2) by congruence. subst w'. exists (evs ++ [EvList o d]). split; [rewrite L; subst w1; cbn [w_log]; rewrite <- app_assoc; reflexivity|].
    intros k. rewrite listed_app. intros Hk. apply in_app_or in Hk as [Hk|[<-|[]]]; [exact (HC k Hk)|]. split; [cbn [fst snd]; rewrite EE; destruct u; reflexivity|exact C2].
  Qed.
  Lemma subvols_clean fuel dest fin : forall l v, clean (subvols_loop fuel cfuel E dev q clobber dest l fin v).
  Proof.
    induction l as [|[k s] l IH]; intros v; cbn [subvols_loop]; [apply clean_lift; intros u _; apply clean_ret|]. cbv zeta. apply clean_bind; [|intros v'; apply IH].
    destruct (key_in _ v); [apply clean_ret|]. apply clean_bind; [apply dir_clean|]. intros [v' ok]. apply clean_bind; [apply clean_warn|intros _; apply clean_ret].
  Qed.
  Lemma recover_clean fuel dest : clean (doRecoverFiles fuel cfuel E dev q clobber dest).
  Proof.
    unfold doRecoverFiles. apply clean_bind; [apply clean_quiet, quiet_mkall|]. intros []; cbn [negb].
    - apply clean_bind; [apply dir_clean|]. intros [v ok]. apply clean_bind; [apply clean_warn|]. intros _. apply clean_bind; [apply subvols_clean|intros v'; apply clean_ret].
    - apply clean_bind; [|intros _; apply clean_ret]. exact (clean_warn false WDir dest).
  Qed.
End OnlyIf.
(** C85: if the command ends and does not report a failed directory, then in every directory that can be reached all items
    (stored without slack) are whole: one item cut short anywhere stops it. *)
Theorem C85_one_bad_item_stops : forall fuel cfuel E dev q clobber dest w w' v, doRecoverFiles fuel cfuel E dev q clobber dest w = (w', Ret (true, v)) ->
  exists evs, w_log w' = evs ++ w_log w /\
    ((forall p, ~ In (EvWarn WDir p) evs) -> forall o d, reachable q (o, d) -> st_end (q_dirItems q o d) = Ok tt /\
       forall k l, In (k, sl l) (st_items (q_dirItems q o d)) -> dir_item_whole (sl l)).
Proof.
  intros fuel cfuel E dev q clobber dest w w' v H. destruct (C50_all_reachable_partial _ _ _ _ _ _ _ _ _ _ H) as (evs & L & HR). destruct (recover_clean cfuel E dev q clobber fuel dest _ _ _ H) as (evs' & L' & HC).
  assert (evs' = evs) by (rewrite L' in L; exact (app_inv_tail _ _ _ L)). subst evs'. exists evs. split; [exact L|]. intros HW o d HRd. destruct (HC (o, d) (HR HW _ HRd)) as [H1 H2]. cbn [fst snd] in *. split; [exact H1|].
  intros k l Hin. destruct (H2 _ Hin) as (n & HN). apply (name_whole (sl l) n); [apply sl_wf|apply scap_sl|exact HN].
Qed.
Print Assumptions C85_one_bad_item_stops.
