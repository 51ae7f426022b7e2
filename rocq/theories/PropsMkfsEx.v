(** C93: a concrete tree: a short file, a directory with a file of 5000 bytes and a link. *)
From Verif Require Import Go GoProofs Layout LayoutProofs SpecLayout KeyFmt KeyProofs Bolt Store StoreProofs SpecStore Session PropsSession IoUtil Crc Recon PropsRecon PropsReconEx RangeItems.
From Verif Require Import PropsPath ToString Fs Recover SpecFs SpecContent SpecTree SpecDisk PropsDest Rescue PropsRescueRead PropsRescueNode SpecMount PropsMount PropsRecoverEx PropsTreeEx PropsDiskEx.
From Verif Require Import Uuid PropsUuid Ls Cli SpecCli PropsCli PropsCliEx SpecVolume PropsVolume SpecMkfs MkfsProofs MkfsImage PropsMkfs.
From Coq Require Import List ZifyBool ZifyNat ZifyN.
From Verif Require Import Go.
Ltac Zify.zify_post_hook ::= Z.div_mod_to_equations.

Definition k_data : list byte := repeat x41 5000.
Definition k_tree : list (list byte * tree) := [(s_x, TFile b_abc); (s_d, TDir [(s_y, TFile k_data); (s_f, TLink s_x)])].
Definition k_base (i : Z) : d_inode := mkino 0.
Lemma k_base_ok : good_base k_base.
Proof. intros i. split; [apply fits_b; vm_compute; reflexivity|]. vm_compute. repeat split; discriminate. Qed.
Lemma k_writable : writable (TDir k_tree).
Proof.
  assert (HN : forall n, In n [s_x; s_y; s_d; s_f] -> name_ok n) by (intros n Hn; repeat (destruct Hn as [<-|Hn]; [nm|]); destruct Hn).
  apply writable_dir. split; [repeat constructor; apply HN; cbn; auto|]. split; [unfold hashes, hash_of; vm_compute; repeat constructor; cbn; intuition discriminate|].
  intros n t [H|[H|[]]]; injection H as <- <-; [exact Logic.I|]. apply writable_dir. split; [repeat constructor; apply HN; cbn; auto|]. split; [unfold hashes, hash_of; vm_compute; repeat constructor; cbn; intuition discriminate|].
  intros n t [H|[H|[]]]; injection H as <- <-; [exact Logic.I|vm_compute; reflexivity].
Qed.
Lemma k_foreign : Forall (foreign id0) (data_of (TDir k_tree)).
Proof. assert (E : data_of (TDir k_tree) = [pad k_data]) by (vm_compute; reflexivity). rewrite E. constructor; [|constructor]. left. vm_compute. discriminate. Qed.
Lemma k_short : paths_short (abs1 s_d) k_tree.
Proof. intros r Hr. apply in_all_paths in Hr. revert r Hr. apply Forall_forall. vm_compute. repeat constructor. Qed.
Lemma k_count : zlen (volume_blocks id0 7 k_base (TDir k_tree)) = 14. Proof. vm_compute. reflexivity. Qed.
Lemma k_len N : 0 <= N < 2^61 -> zlen (mkfs id0 7 k_base (TDir k_tree) N) < 2^62 /\ Forall (fun b => zlen b = BS) (volume_blocks id0 7 k_base (TDir k_tree)).
Proof.
  intros HN. assert (HF : Forall (fun b => zlen b = BS) (volume_blocks id0 7 k_base (TDir k_tree))).
  { apply Forall_forall. assert (HB : forallb (fun b => zlen b =? BS) (volume_blocks id0 7 k_base (TDir k_tree)) = true) by (vm_cast_no_check (eq_refl true)). rewrite forallb_forall in HB. intros b Hb. apply Z.eqb_eq, HB, Hb. }
  split; [|exact HF]. unfold mkfs. rewrite !zlen_app, !zlen_repeat, (concat_zlen BS _ HF), k_count. rewrite bs_pos. lia.
Qed.
#[local] Opaque id0 k_data mkfs k_base.
Example C93_ex : forall N cfuel, 2^27 <= N < 2^61 -> 2^64 < Z.of_nat cfuel -> let D := mkfs id0 7 k_base (TDir k_tree) N in let h := host_with (file_dev D) NoFile in let g := mkGlobals BS p_m in
  exists h1 b, btrfscue (o_of 0 0 0 (fun _ => 0)) h g (CRecon (Some (Uuid.String id0)) false) [p_i] = mkResult h1 ONone Exit0 /\
    (forall rfuel, (Datatypes.length b + 1 < rfuel)%nat -> exists fuel h2, btrfscue (o_of fuel cfuel rfuel (fun _ => 0)) h1 g (CRecover false) [p_i; abs1 s_d] = mkResult h2 ONone Exit0 /\
       look (w_fs (h_world h2)) [s_d; s_x] = Some (NFile b_abc) /\ look (w_fs (h_world h2)) [s_d; s_d; s_y] = Some (NFile k_data) /\ look (w_fs (h_world h2)) [s_d; s_d; s_f] = Some (NLink s_x)) /\
    exists gen, btrfscue (o_of 0 0 0 (fun _ => 0)) h1 g CMount [p_i; p_m] = mkResult h1 ONone (Serving b gen (Reader (file_reader D)) p_m) /\
      forall rfuel, (Datatypes.length b + 1 < rfuel)%nat -> exists T n, session (ix_queries rfuel b gen) T /\ In ([s_d; s_y], false, n) T.
Proof.
  intros N cfuel HN Hcf D h g. destruct (k_len N ltac:(lia)) as [HL _]. pose proof bs_pos as HB.
  destruct (C93_written_recovered (o_of 0 0 0 (fun _ => 0)) h g (Uuid.String id0) id0 false p_i 7 k_base k_tree N (abs1 s_d) [s_d] (trouble0 0 0 0 _) (host_dev _ _) ltac:(discriminate) eq_refl eq_refl spells_id0 id0_len id0_nonzero ltac:(lia) k_base_ok k_writable k_foreign ltac:(lia) HL) as (h1 & b & R1 & R2 & R3).
  destruct (C93_written_mounted (o_of 0 0 0 (fun _ => 0)) h g (Uuid.String id0) id0 false p_i 7 k_base k_tree N (trouble0 0 0 0 _) (host_dev _ _) ltac:(discriminate) eq_refl eq_refl spells_id0 id0_len id0_nonzero ltac:(lia) k_base_ok k_writable k_foreign ltac:(lia) HL) as (h1' & b' & S1 & S2 & S3).
  assert (h1' = h1) by congruence. subst h1'. assert (b' = b) by (destruct R2 as [X _], S2 as [Y _]; congruence). subst b'. exists h1, b. split; [exact R1|]. split.
  - intros rfuel Hr. destruct (R3 (o_of 0 cfuel rfuel (fun _ => 0)) g false eq_refl ltac:(intros n k; reflexivity) Hcf Hr o_dest k_short) as (n & HX).
    { intros r nd Hrn. assert (X : None = Some nd) by (etransitivity; [symmetry; exact (o_look r)|exact Hrn]). discriminate X. }
    { right. intros r nd Hrn. assert (X : None = Some nd) by (etransitivity; [symmetry; exact (o_look r)|exact Hrn]). discriminate X. }
    destruct (HX n (le_n n)) as (h2 & w & evs & E & (_ & _ & Hw) & HT & _). exists n, h2. split; [exact E|]. rewrite Hw. split; [exact (HT [s_x])|]. split; [exact (HT [s_d; s_y])|exact (HT [s_d; s_f])].
  - destruct (S3 (o_of 0 0 0 (fun _ => 0)) g p_m eq_refl eq_refl) as (gen & E & HV). exists gen. split; [exact E|]. intros rfuel Hr. destruct (HV rfuel Hr) as [_ V2].
    destruct (V2 _ [s_d; s_y] (TFile k_data) (ses_mount _) (ex_intro _ _ (or_introl eq_refl)) eq_refl) as (T & n & H1 & _ & H2). exists T, n. split; [exact H1|exact H2].
Qed.
Print Assumptions C93_ex.
