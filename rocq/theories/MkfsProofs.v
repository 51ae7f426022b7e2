(** C93: what the writer of SpecMkfs writes is a volume. *)
From Verif Require Import Go GoProofs Layout LayoutProofs SpecLayout LeafProofs StructProofs PropsLayout KeyFmt KeyProofs Bolt Store SpecStore Session PropsSession IoUtil Crc PropsCrc Recon PropsRecon PropsReconEx.
From Verif Require Import Path Fs SpecFs SpecContent SpecTree TreeRun SpecDisk SpecVolume VolumeProofs SpecMkfs.
From Coq Require FinFun.
From Coq Require Import List Lia ZifyBool ZifyNat ZifyN Sorting.Sorted Permutation.
From Verif Require Import Go.
Ltac Zify.zify_post_hook ::= Z.div_mod_to_equations.

Section TInd.
  Variable P : tree -> Prop.
  Hypothesis HF : forall c, P (TFile c).
  Hypothesis HL : forall s, P (TLink s).
  Hypothesis HD : forall kids, (forall n t, In (n, t) kids -> P t) -> P (TDir kids).
  Fixpoint tree_ind' (t : tree) : P t :=
    match t with
    | TFile c => HF c
    | TLink s => HL s
    | TDir kids => HD kids ((fix go (l : list (list byte * tree)) : forall n t, In (n, t) l -> P t :=
        match l with
        | [] => fun n t H => False_ind _ H
        | x :: l => fun n t H => match H with
          | or_introl E => match E in _ = y return P (snd y) with eq_refl => tree_ind' (snd x) end
          | or_intror H => go l n t H
          end
        end) kids)
    end.
End TInd.

(** ** sorting *)
Lemma insert_perm k l : Permutation (k :: l) (insert_kid k l).
Proof. induction l as [|x l IH]; cbn [insert_kid]; [apply Permutation_refl|]. destruct (hash_of k <? hash_of x); [apply Permutation_refl|]. eapply perm_trans; [apply perm_swap|apply perm_skip, IH]. Qed.
Lemma sort_perm l : Permutation l (sort_kids l).
Proof. induction l as [|x l IH]; cbn [sort_kids fold_right]; [apply Permutation_refl|]. eapply perm_trans; [apply perm_skip, IH|apply insert_perm]. Qed.
Lemma insert_sorted k l : StronglySorted Z.lt (hashes l) -> ~ In (hash_of k) (hashes l) -> StronglySorted Z.lt (hashes (insert_kid k l)).
Proof.
  induction l as [|x l IH]; cbn [insert_kid hashes map]; intros HS HN; [repeat constructor|]. inversion HS as [|? ? H1 H2]; subst. destruct (hash_of k <? hash_of x) eqn:E; cbn [hashes map].
  - constructor; [exact HS|]. constructor; [lia|]. eapply Forall_impl; [|exact H2]. intros y Hy. lia.
  - cbn [In] in HN. constructor; [apply IH; [exact H1|tauto]|]. apply Forall_forall. intros y Hy. apply (Permutation_in _ (Permutation_sym (Permutation_map hash_of (insert_perm k l)))) in Hy. cbn [map In] in Hy. rewrite Forall_forall in H2. destruct Hy as [<-|Hy]; [lia|exact (H2 y Hy)].
Qed.
Lemma sort_sorted l : NoDup (hashes l) -> StronglySorted Z.lt (hashes (sort_kids l)).
Proof.
  induction l as [|x l IH]; cbn [sort_kids fold_right hashes map]; intros H; [constructor|]. inversion H as [|? ? H1 H2]; subst. apply insert_sorted; [exact (IH H2)|].
  intros X. apply H1. exact (Permutation_in _ (Permutation_sym (Permutation_map hash_of (sort_perm l))) X).
Qed.
Lemma hashes_names l : NoDup (hashes l) -> NoDup (map fst l).
Proof.
  induction l as [|x l IH]; cbn [hashes map]; intros H; [constructor|]. inversion H as [|? ? H1 H2]; subst. constructor; [|exact (IH H2)]. intros X. apply H1. apply in_map_iff in X as (y & E & Hy). apply in_map_iff. exists y. unfold hash_of. rewrite E. auto.
Qed.
(** no path leads to something else *)
Lemma writable_dir kids : writable (TDir kids) <-> Forall (fun k => name_ok (fst k)) kids /\ NoDup (hashes kids) /\ forall n t, In (n, t) kids -> writable t.
Proof.
  cbn [writable]. assert (E : (fix all (l : list (list byte * tree)) := match l with [] => True | k :: r => writable (snd k) /\ all r end) kids <-> forall n t, In (n, t) kids -> writable t).
  { induction kids as [|[m u] l IH]; [split; [intros _ n t []|auto]|]. cbn [snd]. rewrite IH. split.
    - intros [H1 H2] n t [H|H]; [assert (u = t) by congruence; subst; exact H1|exact (H2 n t H)].
    - intros H. split; [apply (H m u); left; reflexivity|]. intros n t Hn. apply (H n t). right. exact Hn. }
  rewrite E. reflexivity.
Qed.
Definition sort_kid (k : list byte * tree) : list byte * tree := (fst k, sort_tree (snd k)).
Lemma sort_dir kids : sort_tree (TDir kids) = TDir (sort_kids (map sort_kid kids)). Proof. reflexivity. Qed.
Lemma sort_kid_hash l : hashes (map sort_kid l) = hashes l. Proof. unfold hashes. rewrite map_map. reflexivity. Qed.
Lemma pick_perm l m n : NoDup (map fst l) -> Permutation l m -> pick m n = pick l n.
Proof.
  intros HN HP. destruct (pick l n) as [t|] eqn:E.
  - apply In_pick; [apply (Permutation_NoDup (Permutation_map fst HP)), HN|]. apply (Permutation_in _ HP), pick_In, E.
  - destruct (pick m n) as [t|] eqn:E2; [|reflexivity]. exfalso. apply (proj2 (pick_names l n)); [|exact E]. apply pick_In in E2. apply (Permutation_in _ (Permutation_sym HP)) in E2. exact (in_map fst _ _ E2).
Qed.
Lemma pick_sort_kid l n : pick (map sort_kid l) n = option_map sort_tree (pick l n).
Proof. induction l as [|[m u] l IH]; [reflexivity|]. cbn [map sort_kid fst snd pick]. destruct (list_eq_dec _ m n); [reflexivity|exact IH]. Qed.
Lemma sort_at t : writable t -> forall r, tree_at (sort_tree t) r = tree_at t r.
Proof.
  induction t as [c|s|kids IH] using tree_ind'; intros HW r; [reflexivity|reflexivity|]. rewrite sort_dir. destruct r as [|n r]; [reflexivity|]. cbn [tree_at]. apply writable_dir in HW as (_ & HN & HK).
  rewrite (pick_perm (map sort_kid kids)); [|rewrite map_map; cbn [sort_kid fst]; exact (hashes_names _ HN)|apply sort_perm]. rewrite pick_sort_kid. destruct (pick kids n) as [u|] eqn:E; [|reflexivity]. cbn [option_map]. apply pick_In in E. apply (IH n u E). exact (HK n u E).
Qed.
(** written in this order *)
Inductive ready : tree -> Prop :=
| r_file c : ready (TFile c)
| r_link s : path_arg s = true -> ready (TLink s)
| r_dir kids : Forall (fun k => name_ok (fst k)) kids -> StronglySorted Z.lt (hashes kids) -> (forall n t, In (n, t) kids -> ready t) -> ready (TDir kids).
Lemma sort_ready t : writable t -> ready (sort_tree t).
Proof.
  induction t as [c|s|kids IH] using tree_ind'; intros HW; [constructor|constructor; exact HW|]. rewrite sort_dir. apply writable_dir in HW as (HA & HN & HK). constructor.
  - apply Forall_forall. intros k Hk. apply (Permutation_in _ (Permutation_sym (sort_perm _))) in Hk. apply in_map_iff in Hk as (x & <- & Hx). rewrite Forall_forall in HA. exact (HA x Hx).
  - apply sort_sorted. rewrite sort_kid_hash. exact HN.
  - intros n t Ht. apply (Permutation_in _ (Permutation_sym (sort_perm _))) in Ht. apply in_map_iff in Ht as ((m, u) & E & Hx). cbn [sort_kid fst snd] in E. unfold sort_kid in E. cbn [fst snd] in E. assert (t = sort_tree u) as -> by congruence. apply (IH m u Hx). exact (HK m u Hx).
Qed.

(** ** data *)
Lemma bs_pos : BS = 16384. Proof. reflexivity. Qed.
#[local] Opaque BS.
Lemma pad_len c : zlen (pad c) = BS * (zlen (pad c) / BS) /\ zlen c <= zlen (pad c).
Proof. unfold pad. rewrite zlen_app, zlen_repeat. pose proof bs_pos. pose proof (zlen_nonneg c). rewrite bs_pos. lia. Qed.
Lemma chop_len n : forall d, zlen d = BS * Z.of_nat n -> Forall (fun b => zlen b = BS) (chop n d) /\ concat (chop n d) = d /\ length (chop n d) = n.
Proof.
  pose proof bs_pos as HB. induction n as [|n IH]; intros d Hd; cbn [chop concat].
  - split; [constructor|]. split; [|reflexivity]. destruct d; [reflexivity|]. unfold zlen in Hd. cbn [length] in Hd. lia.
  - destruct (IH (skipn (Z.to_nat BS) d)) as (H1 & H2 & H3); [unfold zlen in *; rewrite skipn_length; lia|]. split; [constructor; [unfold zlen in *; rewrite firstn_length; lia|exact H1]|]. split; [rewrite H2; apply firstn_skipn|cbn [length]; congruence].
Qed.
Lemma data_spec c : Forall (fun b => zlen b = BS) (data_blocks c) /\ concat (data_blocks c) = pad c.
Proof. unfold data_blocks. pose proof (pad_len c) as [H1 H2]. pose proof (zlen_nonneg c). pose proof bs_pos. destruct (chop_len (Z.to_nat (zlen (pad c) / BS)) (pad c)) as (A1 & A2 & _); [lia|auto]. Qed.

(** ** places *)
Fixpoint place_kids (kids : list (list byte * tree)) (i : Z) (bl : list (list byte)) : list (list byte * vtree) * Z * list (list byte) :=
  match kids with
  | [] => ([], i, bl)
  | (n, t) :: r => let '(v, i, bl) := place t i bl in let '(vs, i, bl) := place_kids r i bl in ((n, v) :: vs, i, bl)
  end.
Lemma place_dir kids i bl : place (TDir kids) i bl = let '(vs, j, bl) := place_kids kids (i + 1) bl in (VDir i vs, j, bl).
Proof. reflexivity. Qed.
Definition numbers (i : Z) (m : nat) : list Z := map (fun k => i + Z.of_nat k) (seq 0 m).
Lemma seq_from a b : seq a b = map (fun k => (a + k)%nat) (seq 0 b).
Proof. induction b as [|b IH]; [reflexivity|]. rewrite !seq_S, map_app, IH. cbn [map plus]. reflexivity. Qed.
Lemma numbers_app i a b : numbers i (a + b) = numbers i a ++ numbers (i + Z.of_nat a) b.
Proof. unfold numbers. rewrite seq_app, map_app. f_equal. cbn [plus]. rewrite (seq_from a b), map_map. apply map_ext. intros k. lia. Qed.
Lemma numbers_in i m x : In x (numbers i m) -> i <= x < i + Z.of_nat m.
Proof. unfold numbers. intros H. apply in_map_iff in H as (k & <- & Hk). apply in_seq in Hk. lia. Qed.
Lemma numbers_nodup i m : NoDup (numbers i m).
Proof. unfold numbers. apply FinFun.Injective_map_NoDup; [intros a b E; lia|apply seq_NoDup]. Qed.
Definition placed (bl : list (list byte)) (w : vtree) : Prop :=
  match w with
  | VFile _ (InItem c) => zlen c <= 2048
  | VFile _ (Pieces size ps) => exists c pre post, 2048 < zlen c /\ size = zlen c /\ ps = [PData (address (zlen pre)) (pad c)] /\ bl = pre ++ data_blocks c ++ post
  | VLink _ s => path_arg s = true
  | VDir _ kids => Forall (fun k => name_ok (fst k)) kids /\ StronglySorted Z.lt (map (fun k => NameHash (fst k)) kids)
  end.
Lemma placed_more bl bl' w : placed bl w -> placed (bl ++ bl') w.
Proof. destruct w as [i [c|size ps]|i s|i kids]; cbn [placed]; auto. intros (c & pre & post & H1 & H2 & H3 & ->). exists c, pre, (post ++ bl'). rewrite <- !app_assoc. auto. Qed.
Definition well_placed (t : tree) (i : Z) (bl : list (list byte)) (v : vtree) (j : Z) (bl' : list (list byte)) : Prop :=
  tree_of v = t /\ (exists m, map v_ino (nodes v) = numbers i m /\ j = i + Z.of_nat m) /\ v_ino v = i /\
  (exists new, bl' = bl ++ new /\ Forall (fun b => zlen b = BS) new) /\ Forall (placed bl') (nodes v).
Lemma place_ok t : ready t -> forall i bl, let '(v, j, bl') := place t i bl in well_placed t i bl v j bl'.
Proof.
  induction t as [c|s|kids IH] using tree_ind'; intros HR i bl.
  - cbn [place]. destruct (zlen c <=? 2048) eqn:E.
    + split; [reflexivity|]. split; [exists 1%nat; split; [cbn; f_equal; lia|lia]|]. split; [reflexivity|]. split; [exists []; rewrite app_nil_r; auto|]. constructor; [cbn; lia|constructor].
    + split; [|split; [exists 1%nat; split; [cbn; f_equal; lia|lia]|split; [reflexivity|split; [exists (data_blocks c); split; [reflexivity|apply data_spec]|]]]].
      * cbn [tree_of content map piece_bytes concat]. rewrite app_nil_r. unfold pad. unfold zlen at 1. rewrite Nat2Z.id, firstn_app, firstn_all, Nat.sub_diag. cbn [firstn]. rewrite app_nil_r. reflexivity.
      * constructor; [|constructor]. cbn [placed]. exists c, bl, []. rewrite app_nil_r. split; [lia|auto].
  - cbn [place]. inversion HR; subst. split; [reflexivity|]. split; [exists 1%nat; split; [cbn; f_equal; lia|lia]|]. split; [reflexivity|]. split; [exists []; rewrite app_nil_r; auto|]. constructor; [assumption|constructor].
  - rewrite place_dir. inversion HR as [| |k0 HN HS HK]; subst.
    assert (G : forall l i bl, (forall n t, In (n, t) l -> In (n, t) kids) -> let '(vs, j, bl') := place_kids l i bl in
      map (fun k => (fst k, tree_of (snd k))) vs = l /\ (exists m, map v_ino (flat_map (fun k => nodes (snd k)) vs) = numbers i m /\ j = i + Z.of_nat m) /\
      (exists new, bl' = bl ++ new /\ Forall (fun b => zlen b = BS) new) /\ Forall (placed bl') (flat_map (fun k => nodes (snd k)) vs)).
    { induction l as [|[n t] l IHl]; intros i0 bl0 Hin; cbn [place_kids].
      - split; [reflexivity|]. split; [exists 0%nat; split; [reflexivity|lia]|]. split; [exists []; rewrite app_nil_r; auto|constructor].
      - pose proof (Hin n t (or_introl eq_refl)) as Hk. specialize (IH n t Hk (HK n t Hk) i0 bl0). destruct (place t i0 bl0) as [[v i1] bl1]. destruct IH as (A1 & (m & A2 & A3) & _ & (new & A5 & A6) & A7).
        specialize (IHl i1 bl1 (fun n t H => Hin n t (or_intror H))). destruct (place_kids l i1 bl1) as [[vs i2] bl2]. destruct IHl as (B1 & (m2 & B2 & B3) & (new2 & B5 & B6) & B7).
        split; [cbn [map fst snd]; rewrite A1, B1; reflexivity|]. split.
        + exists (m + m2)%nat. cbn [flat_map snd]. rewrite map_app, A2, B2, A3, numbers_app. split; [reflexivity|lia].
        + split; [exists (new ++ new2); rewrite B5, A5, app_assoc; split; [reflexivity|apply Forall_app; auto]|]. cbn [flat_map snd]. apply Forall_app. split; [|exact B7]. eapply Forall_impl; [|exact A7]. intros w Hw. rewrite B5. apply placed_more. exact Hw. }
    specialize (G kids (i + 1) bl (fun n t H => H)). destruct (place_kids kids (i + 1) bl) as [[vs j] bl']. destruct G as (A1 & (m & A2 & A3) & A5 & A7).
    split; [cbn [tree_of]; rewrite A1; reflexivity|]. split; [exists (S m); cbn [nodes map v_ino]; rewrite A2; split; [|lia]|].
    { change (S m) with (1 + m)%nat. rewrite numbers_app. cbn. f_equal. lia. }
    split; [reflexivity|]. split; [exact A5|]. cbn [nodes]. constructor; [|exact A7]. cbn [placed].
    assert (EF : forall g : list byte -> Z, map (fun k => g (fst k)) vs = map (fun k => g (fst k)) kids) by (intros g; rewrite <- A1, map_map; reflexivity).
    split; [|rewrite EF; exact HS]. rewrite <- A1 in HN. rewrite Forall_map in HN. exact HN.
Qed.
