(** C59-C61 examples and counterexamples; C65: arguments of ls; C66: dump-index. *)
From Verif Require Import Go GoProofs Layout LayoutProofs SpecLayout StructProofs PropsLayout KeyFmt KeyProofs Bolt Store StoreProofs SpecStore PropsStore MkIndex IoUtil Fs Recover SpecContent Conc PropsConc Rescue.
From Verif Require Import PropsRange PropsPath PropsRecoverDfs PropsRecoverFile PropsRecoverEx PropsRescueRead PropsRescueNode ToString Ls PropsLs.
From Coq Require Import Strings.String Permutation Sorted List.
From Coq Require Import ZifyBool ZifyNat ZifyN.
Ltac Zify.zify_post_hook ::= Z.div_mod_to_equations.

Lemma Ok_inj' {A} (a b : A) : Ok a = Ok b -> a = b.
Proof. congruence. Qed.
Definition s_z : list byte := [x7a].
(** ** insertion sort, to run the examples; it is a [sorter] *)
Fixpoint ins (x : slice) (l : list slice) : Res (list slice) :=
  match l with
  | [] => Ok [x]
  | y :: r => b <- Less y x ;; if (b : bool) then r' <- ins x r ;; Ok (y :: r') else Ok (x :: l)
  end.
Fixpoint isort (l : list slice) : Res (list slice) := match l with [] => Ok [] | x :: l => l' <- isort l ;; ins x l' end.
Lemma ins_ok U x : less_ok U -> In x U -> forall l, (forall y, In y l -> In y U) -> StronglySorted (fun a b => Less b a = Ok false) l ->
  exists l', ins x l = Ok l' /\ Permutation (x :: l) l' /\ StronglySorted (fun a b => Less b a = Ok false) l'.
Proof.
  intros (O1 & O2 & O3 & O4) Hx. induction l as [|y l IH]; intros HU HS; cbn [ins].
  - exists [x]. split; [reflexivity|]. split; [apply Permutation_refl|repeat constructor].
  - inversion HS as [|? ? HS' HF]; subst. pose proof (HU y (or_introl eq_refl)) as Hy. destruct (O1 y x Hy Hx) as ([|] & E); rewrite E; cbn [rbind].
    + destruct IH as (l' & E' & HP & HO); [intros z Hz; apply HU; right; exact Hz|exact HS'|]. rewrite E'. cbn [rbind]. exists (y :: l'). split; [reflexivity|].
      split; [apply perm_trans with (y :: x :: l); [apply perm_swap|apply perm_skip; exact HP]|]. constructor; [exact HO|]. apply Forall_forall. intros z Hz.
      apply (Permutation_in _ (Permutation_sym HP)) in Hz. destruct Hz as [<-|Hz]; [|rewrite Forall_forall in HF; apply HF; exact Hz].
      destruct (O1 x y Hx Hy) as ([|] & E2); [|exact E2]. pose proof (O3 x y x Hx Hy Hx E2 E). rewrite O2 in H by exact Hx. discriminate.
    + exists (x :: y :: l). split; [reflexivity|]. split; [apply Permutation_refl|]. constructor; [exact HS|]. constructor; [exact E|]. rewrite Forall_forall in *. intros z Hz. specialize (HF z Hz).
      assert (HzU : In z U) by (apply HU; right; exact Hz). destruct (O1 z x HzU Hx) as ([|] & E2); [|exact E2].
      destruct (O4 z x y HzU Hx Hy E2); congruence.
Qed.
Lemma isort_sorter : sorter isort.
Proof.
  intros U HU. assert (G : forall l, (forall y, In y l -> In y U) -> exists l', isort l = Ok l' /\ Permutation l l' /\ StronglySorted (fun a b => Less b a = Ok false) l').
  { induction l as [|x l IH]; intros Hin; cbn [isort]; [exists []; split; [reflexivity|split; constructor]|].
    destruct IH as (l' & E & HP & HO); [intros y Hy; apply Hin; right; exact Hy|]. rewrite E. cbn [rbind].
    destruct (ins_ok U x HU (Hin x (or_introl eq_refl)) l') as (l2 & E2 & HP2 & HO2); [intros y Hy; apply Hin; right; exact (Permutation_in _ (Permutation_sym HP) Hy)|exact HO|].
    exists l2. split; [exact E2|]. split; [|exact HO2]. apply perm_trans with (x :: l'); [apply perm_skip; exact HP|exact HP2]. }
  apply G. auto.
Qed.

(** ** a small tree: / holds the directory x (257) and the file y (258); x holds the file x (259) *)
Definition c61 (dir : Z) : list d_dir_item :=
  if dir =? 256 then [mkdi 257 1 2 s_x; mkdi 258 1 1 s_y] else if dir =? 257 then [mkdi 259 1 1 s_x] else [].
(** a tree that holds itself *)
Definition c_loop (dir : Z) : list d_dir_item := if dir =? 256 then [mkdi 256 1 2 s_x] else [].
Definition q_of (trees : Z -> Z -> list d_dir_item) (ino : Z -> Z -> option d_inode) : queries :=
  mkQueries (fun o d => mkStream (map di_of (trees o d)) (Ok tt))
    (fun o i => match ino o i with Some d => Ok (Some (sl (ser (inode_fields d) ++ []))) | None => Ok None end)
    (fun _ _ => mkStream [] (Ok tt)) (fun _ _ => Ok None) (fun _ => Ok (0, 0)) (mkStream [] (Ok tt)).
Definition fits_items (ds : list d_dir_item) : bool := forallb (fun d => forallb fit1b (dir_item_fields d) && (zlen (di_name d) <=? 255)) ds.
Lemma q_of_holds trees ino o d : fits_items (trees o d) = true -> dir_holds (q_of trees ino) o d (trees o d).
Proof.
  intros H. split; [reflexivity|]. cbn [q_of q_dirItems st_items]. unfold fits_items in H. induction (trees o d) as [|x l IH]; [constructor|]. cbn [forallb] in H. cbn [map].
  apply andb_true_iff in H as [H1 H2]. apply andb_true_iff in H1 as [H1 H3]. constructor; [|apply IH; exact H2]. split; [apply carries_self, fits_b; exact H1|lia].
Qed.
Lemma q_of_inodes trees ino o : (forall i d, ino o i = Some d -> carries (sl (ser (inode_fields d) ++ [])) (inode_fields d) /\ inode_times_ok d) -> inodes_are (q_of trees ino) o (ino o).
Proof. intros H i. destruct (ino o i) as [d|] eqn:E; [|cbn [q_of q_inode]; rewrite E; reflexivity]. eexists. cbn [q_of q_inode]. rewrite E. split; [reflexivity|apply H with i; exact E]. Qed.
Definition ino1 (o i : Z) : option d_inode := if (o =? 5) && (i =? 258) then Some ex_inode else None.
Lemma ino1_ok trees : inodes_are (q_of trees ino1) 5 (ino1 5).
Proof. apply q_of_inodes. intros i d. unfold ino1. destruct (_ && _); [|discriminate]. intros [= <-]. exact C06_ex_inode. Qed.
Lemma c61_acc : Acc (subdir c61) 256.
Proof.
  constructor. intros c (d & Hd & HD & <-). cbn in Hd. destruct Hd as [<-|[<-|[]]]; [|discriminate]. constructor. intros c (d & Hd & HD2 & <-). cbn in Hd. destruct Hd as [<-|[]]. discriminate.
Qed.
Lemma c61_holds d : dir_holds (q_of (fun _ => c61) ino1) 5 d (c61 d).
Proof. apply (q_of_holds (fun _ => c61)). unfold c61. destruct (d =? 256); [vm_compute; reflexivity|]. destruct (d =? 257); vm_compute; reflexivity. Qed.
Definition no_time (t : Z * Z) : list byte := [x54].
Example C61_ex : exists fuel0 text, ls_text no_time (ino1 5) true c61 true 256 text /\ forall fuel, (fuel0 <= fuel)%nat -> listDirectory no_time isort fuel (q_of (fun _ => c61) ino1) 5 256 true true = Ok text.
Proof. apply C61_text_partial; [exact isort_sorter|apply ino1_ok|exact c61_holds|exact c61_acc]. Qed.
Example C60_ex : exists ds', Permutation (c61 256) ds' /\ ls_sorted ds' /\
  listDirectory no_time isort 1 (q_of (fun _ => c61) ino1) 5 256 false false = Ok (concat (map (ls_line no_time (ino1 5) false) ds')).
Proof. apply C60_listing_partial; [exact isort_sorter|apply ino1_ok|apply c61_holds]. Qed.
(** C60 is false for packed records: the second entry of a record is not listed *)
Theorem C60_packed_refuted : exists d1 d2 q, st_items (q_dirItems q 5 256) = [([], sl (ser (dir_item_fields d1) ++ ser (dir_item_fields d2)))] /\ di_name d1 <> di_name d2 /\
  forall st sort, sorter sort -> exists i, forall fuel, listDirectory st sort (S fuel) q 5 256 false false = Ok (ls_line st i false d1).
Proof.
  set (d1 := mkdi 257 1 1 s_x). set (d2 := mkdi 258 1 1 s_y).
  exists d1, d2, (mkQueries (fun _ _ => mkStream [([], sl (ser (dir_item_fields d1) ++ ser (dir_item_fields d2)))] (Ok tt)) (fun _ _ => Ok None) (q_extents q54) (q_extent0 q54) (q_physical q54) (q_subvolumes q54)).
  split; [reflexivity|]. split; [discriminate|]. intros st sort HS. exists (fun _ => None). intros fuel.
  set (q := mkQueries _ _ _ _ _ _).
  assert (HF : dir_holds q 5 256 [d1]).
  { split; [reflexivity|]. constructor; [|constructor]. split; [|vm_compute; congruence]. cbn [snd]. apply carries_self, fits_b. vm_compute. reflexivity. }
  assert (HI : inodes_are q 5 (fun _ => None)) by (intros i; reflexivity).
  destruct (C60_listing_partial st sort q 5 _ 256 [d1] false fuel HS HI HF) as (ds' & HP & _ & E). apply Permutation_length_1_inv in HP. subst ds'. rewrite E. cbn [map concat]. rewrite app_nil_r. reflexivity.
Qed.
(** C61 is false as stated: a directory entry that leads back never ends *)
Theorem C61_refuted : exists q, (forall o d, st_end (q_dirItems q o d) = Ok tt) /\ (forall o d, (length (st_items (q_dirItems q o d)) <= 1)%nat) /\
  forall st sort show fuel, sorter sort -> listDirectory st sort fuel q 5 256 true show = Timeout.
Proof.
  exists (q_of (fun _ => c_loop) ino1). split; [reflexivity|]. split; [intros o d; cbn [q_of q_dirItems st_items]; rewrite map_length; unfold c_loop; destruct (d =? 256); cbn [length]; lia|].
  intros st sort show fuel HS.
  destruct (listDirectory st sort fuel (q_of (fun _ => c_loop) ino1) 5 256 true show) as [t| |] eqn:E; [| |reflexivity]; exfalso;
  (assert (HA : Acc (subdir c_loop) 256);
   [apply (C61_terminates_iff_partial st sort (q_of (fun _ => c_loop) ino1) 5 (ino1 5) c_loop show 256 HS);
     [apply ino1_ok|intros d; apply (q_of_holds (fun _ => c_loop)); unfold c_loop; destruct (d =? 256); vm_compute; reflexivity|exists fuel; rewrite E; discriminate]
   |assert (G : forall x, Acc (subdir c_loop) x -> x <> 256);
     [induction 1 as [x _ IH]; intros ->; apply (IH 256); [exists (mkdi 256 1 2 s_x); split; [left; reflexivity|split; reflexivity]|reflexivity]|exact (G 256 HA eq_refl)]]).
Qed.
(** ... and a subvolume is listed with the contents of an unrelated directory of the parent tree *)
Definition t_sub (o d : Z) : list d_dir_item :=
  if (o =? 5) && (d =? 256) then [mkdi 300 132 2 s_y] else if (o =? 300) && (d =? 256) then [mkdi 257 1 1 s_x] else if (o =? 5) && (d =? 300) then [mkdi 258 1 1 s_z] else [].
Theorem C61_subvolume_refuted : exists q, dir_holds q 5 256 [mkdi 300 132 2 s_y] /\ dir_holds q 300 256 [mkdi 257 1 1 s_x] /\ dir_holds q 5 300 [mkdi 258 1 1 s_z] /\
  forall st sort, sorter sort -> exists i, forall fuel, (2 <= fuel)%nat -> listDirectory st sort fuel q 5 256 true false =
    Ok (ls_line st i false (mkdi 300 132 2 s_y) ++ (s_y ++ [x3a; x0a]) ++ ls_line st i false (mkdi 258 1 1 s_z)).
Proof.
  exists (q_of t_sub ino1). split; [apply (q_of_holds t_sub ino1 5 256); vm_compute; reflexivity|]. split; [apply (q_of_holds t_sub ino1 300 256); vm_compute; reflexivity|]. split; [apply (q_of_holds t_sub ino1 5 300); vm_compute; reflexivity|].
  intros st sort HS. exists (ino1 5). intros fuel Hf. pose proof (ino1_ok t_sub) as HI.
  assert (HC : forall d, dir_holds (q_of t_sub ino1) 5 d (t_sub 5 d)).
  { intros d. apply q_of_holds. unfold t_sub. change (5 =? 300) with false. change (5 =? 5) with true. cbn [andb]. destruct (d =? 256); [vm_compute; reflexivity|]. destruct (d =? 300); vm_compute; reflexivity. }
  destruct fuel as [|[|fuel]]; [lia|lia|].
  pose proof (step st sort (q_of t_sub ino1) 5 (ino1 5) (t_sub 5) false HS HI HC true 300) as (ds & HP & _ & HStep).
  change (t_sub 5 300) with [mkdi 258 1 1 s_z] in HP. apply Permutation_length_1_inv in HP. subst ds.
  destruct (HStep fuel (fun _ _ => True)) as [(_ & _ & d & [<-|[]] & HD & _)|(subs & E & HF)]; [intros d [<-|[]]; discriminate|discriminate|].
  assert (HF0 : Forall2 (fun (d : d_dir_item) t => run st sort (q_of t_sub ino1) 5 false true fuel (target d) = Ok t /\ True) [] subs) by exact HF. inversion HF0; subst. clear HF HF0 HStep.
  pose proof (step st sort (q_of t_sub ino1) 5 (ino1 5) (t_sub 5) false HS HI HC true 256) as (ds & HP & _ & HStep).
  change (t_sub 5 256) with [mkdi 300 132 2 s_y] in HP. apply Permutation_length_1_inv in HP. subst ds.
  destruct (HStep (S fuel) (fun _ _ => True)) as [(_ & _ & d & [<-|[]] & HD & E2)|(subs & E2 & HF)].
  - intros d [<-|[]] _. right. eexists. split; [exact E|exact Logic.I].
  - unfold target in E2. cbn [mkdi di_location k_objectid] in E2. congruence.
  - assert (HF0 : Forall2 (fun (d : d_dir_item) t => run st sort (q_of t_sub ino1) 5 false true (S fuel) (target d) = Ok t /\ True) [mkdi 300 132 2 s_y] subs) by exact HF.
    inversion HF0 as [|? t0 ? l0 [Ht _] HF1]; subst. inversion HF1; subst. unfold target in Ht. cbn [mkdi di_location k_objectid] in Ht. rewrite E in Ht. apply Ok_inj' in Ht. subst t0. clear HF HF0 HF1.
    unfold run in E2. rewrite E2. f_equal. change (filter is_dir [mkdi 300 132 2 s_y]) with [mkdi 300 132 2 s_y]. change (filter is_dir [mkdi 258 1 1 s_z]) with (@nil d_dir_item). cbn [combine map concat fst snd]. rewrite !app_nil_r. rewrite <- !app_assoc. reflexivity.
Qed.
Print Assumptions C60_packed_refuted. Print Assumptions C61_refuted. Print Assumptions C61_subvolume_refuted.

(** ** C65: the arguments of ls *)
(** [entry p]: the item that the cleaned path [p] leads to, if any *)
Definition finds (find : Z -> list byte -> Res (option slice)) (entry : list byte -> option d_dir_item) : Prop := forall p,
  match entry p with Some d => exists s, find 5 p = Ok (Some s) /\ item_for s d | None => find 5 p = Ok None end.
Definition root_path : list byte := [x2f].
(** what is shown for an argument *)
Inductive shown := Missing (p : list byte) | One (d : d_dir_item) | Dir (id : Z).
Definition shown_for (entry : list byte -> option d_dir_item) (arg : list byte) : shown :=
  let p := Clean arg in
  if bytes_eqb p root_path then Dir 256
  else match entry p with None => Missing p | Some d => if is_dir d then Dir (target d) else One d end.
Definition missing_of (x : shown) : list (list byte) := match x with Missing p => [p] | _ => [] end.
Definition one_of (x : shown) : list d_dir_item := match x with One d => [d] | _ => [] end.
Definition dir_of (x : shown) : list Z := match x with Dir i => [i] | _ => [] end.
Lemma list_args_spec st q inodes find entry show : inodes_are q 5 inodes -> finds find entry -> forall args,
  list_args st find q show args = Ok (concat (map (ls_line st inodes show) (flat_map one_of (map (shown_for entry) args))),
    flat_map missing_of (map (shown_for entry) args), flat_map dir_of (map (shown_for entry) args)).
Proof.
  intros HI HF. induction args as [|a args IH]; [reflexivity|]. cbn [list_args map flat_map]. cbv zeta. unfold shown_for at 1 3 5. cbv zeta. change [slash] with root_path. destruct (bytes_eqb (Clean a) root_path).
  - rewrite IH. reflexivity.
  - specialize (HF (Clean a)). change FSTreeObjectID with 5. destruct (entry (Clean a)) as [d|].
    + destruct HF as (s & E & HD). rewrite E. cbn [rbind]. destruct (item_type s d HD) as (_ & D & loc & L & LO & _). rewrite D. cbn [rbind]. destruct (is_dir d).
      * rewrite L. cbn [rbind]. rewrite IH. cbn [rbind]. rewrite LO. reflexivity.
      * rewrite (listDirItem_line st q 5 inodes show s d HI HD). cbn [rbind]. rewrite IH. reflexivity.
    + rewrite HF. cbn [rbind]. rewrite IH. reflexivity.
Qed.
(** C65.  Files named by the arguments are shown first, in the order of the arguments, then the
    directories; the others are warned about; no argument means the root. *)
Theorem C65_arguments_partial st sort find entry q inodes contents recursive show args : sorter sort -> finds find entry -> inodes_are q 5 inodes -> (forall d, dir_holds q 5 d (contents d)) ->
  let what := map (shown_for entry) (match args with [] => [root_path] | _ => args end) in
  (recursive = true -> forall d, In d (flat_map dir_of what) -> Acc (subdir contents) d) ->
  exists fuel0 texts, Forall2 (ls_text st inodes show contents recursive) (flat_map dir_of what) texts /\ forall fuel, (fuel0 <= fuel)%nat ->
    doListFiles st sort find fuel q recursive show args = Ok (concat (map (ls_line st inodes show) (flat_map one_of what)), flat_map missing_of what, concat texts).
Proof.
  intros HS HF HI HC what HA.
  assert (HL : forall l, (recursive = true -> forall d, In d l -> Acc (subdir contents) d) -> exists fuel0 texts, Forall2 (ls_text st inodes show contents recursive) l texts /\ forall fuel, (fuel0 <= fuel)%nat -> list_dirs st sort fuel q recursive show l = Ok (concat texts)).
  { clear HA what. induction l as [|d l IH]; intros HA; [exists O, []; split; [constructor|reflexivity]|]. destruct IH as (f & texts & HT & HR); [intros E d' Hd'; apply HA; [exact E|right; exact Hd']|].
    assert (HD : exists f' t, ls_text st inodes show contents recursive d t /\ forall fuel, (f' <= fuel)%nat -> listDirectory st sort fuel q 5 d recursive show = Ok t).
    { destruct recursive.
      - apply C61_text_partial; [assumption|assumption|assumption|]. apply HA; [reflexivity|left; reflexivity].
      - destruct (run_text st sort q 5 inodes contents show HS HI HC 1 false d) as [E|(t & E & HX)].
        + exfalso. destruct (C60_listing_partial st sort q 5 inodes d (contents d) show 0 HS HI (HC d)) as (ds & _ & _ & E'). unfold run in E. congruence.
        + exists 1%nat, t. split; [exact HX|]. intros fuel Hfuel. exact (run_mono_le st sort q 5 inodes contents show HS HI HC false d t 1 fuel Hfuel E). }
    destruct HD as (f' & t & Ht & HR'). exists (Nat.max f f'), (t :: texts). split; [constructor; assumption|]. intros fuel Hfuel. cbn [list_dirs]. change FSTreeObjectID with 5. rewrite HR' by lia. cbn [rbind]. rewrite HR by lia. reflexivity. }
  destruct (HL _ HA) as (f & texts & HT & HR). exists f, texts. split; [exact HT|]. intros fuel Hfuel. unfold doListFiles. cbv zeta. change [[slash]] with [root_path].
  rewrite (list_args_spec st q inodes find entry show HI HF). cbn [rbind]. change (map (shown_for entry) match args with [] => [root_path] | _ :: _ => args end) with what. rewrite HR by exact Hfuel. reflexivity.
Qed.
(** false as soon as a path leads into a subvolume: ls of the subvolume y shows a directory of
    the parent tree *)
Definition find_y (o : Z) (p : list byte) : Res (option slice) := if bytes_eqb p (x2f :: s_y) then Ok (Some (snd (di_of (mkdi 300 132 2 s_y)))) else Ok None.
Theorem C65_subvolume_refuted : exists q find, dir_holds q 300 256 [mkdi 257 1 1 s_x] /\ finds find (fun p => if bytes_eqb p (x2f :: s_y) then Some (mkdi 300 132 2 s_y) else None) /\
  exists i, doListFiles no_time isort find 5 q false false [x2f :: s_y] = Ok ([], [], ls_line no_time i false (mkdi 258 1 1 s_z)).
Proof.
  exists (q_of t_sub ino1), find_y. split; [apply (q_of_holds t_sub ino1 300 256); vm_compute; reflexivity|]. split.
  - intros p. unfold find_y. destruct (bytes_eqb p (x2f :: s_y)); [|reflexivity]. eexists. split; [reflexivity|]. split; [apply carries_self, fits_b; vm_compute; reflexivity|vm_compute; congruence].
  - exists (ino1 5). vm_compute. reflexivity.
Qed.
Example C65_ex : doListFiles no_time isort (fun _ p => if bytes_eqb p (x2f :: s_y) then Ok (Some (snd (di_of (mkdi 258 1 1 s_y)))) else Ok None) 5 (q_of (fun _ => c61) ino1) false false [x2f :: s_x; s_x; [x2f]; x2f :: x2f :: s_y]
  = Ok (ls_line no_time (ino1 5) false (mkdi 258 1 1 s_y), [x2f :: s_x; s_x], ls_line no_time (ino1 5) false (mkdi 258 1 1 s_y) ++ ls_line no_time (ino1 5) false (mkdi 257 1 2 s_x)).
Proof. vm_compute. reflexivity. Qed.
Print Assumptions C65_arguments_partial. Print Assumptions C65_subvolume_refuted.

(** ** C66: dump-index *)
(** a heading before the first entry and where the owner differs from the entry before, and a line for each entry *)
Fixpoint dump_text (last : option Z) (es : bucket) : list byte :=
  match es with
  | [] => []
  | (k, _) :: es =>
      let o := ik_Owner k in
      (if match last with Some l => o =? l | None => false end then [] else str "owner "%string ++ dec o ++ [x0a]) ++
      Key_String (ik_Key k) ++ str " @ "%string ++ dec (ik_Generation k) ++ [x0a] ++ dump_text (Some o) es
  end.
Lemma full_loop_dump m es : forall e0 d before last text fuel,
  (forall e, In e (e0 :: es) -> bytes_ltb (fst e) metadataKey = true /\ exists d, valueData (snd e) = Ok d) ->
  (length es + 2 < fuel)%nat ->
  exists l', full_loop fuel (mkFull (before, e0 :: es ++ [(metadataKey, m)]) metadataKey) d dump_body (last, text)
  = Ok (l', text ++ dump_text (Some last) (e0 :: es ++ [(metadataKey, m)])).
Proof.
  assert (LB : forall x, bytes_ltb x metadataKey = true -> bytes_leb x metadataKey = true /\ bytes_eqb x metadataKey = false).
  { intros x. unfold bytes_ltb, bytes_leb, bytes_eqb. destruct (bytes_cmp x metadataKey); auto; discriminate. }
  induction es as [|[k1 v1] es IH]; intros [k0 v0] d before last text fuel Hall Hfuel; destruct (Hall (k0, v0) (or_introl eq_refl)) as [Hlt _]; cbn [fst snd] in *; destruct (LB _ Hlt) as [HB HE];
  (destruct fuel as [|fuel]; [lia|]); cbn [full_loop]; unfold Full_HasNext, f_key; cbn [f_cur cur_entry snd option_map fst f_end app]; rewrite HB;
  unfold dump_body at 1, f_key; cbn [f_cur cur_entry snd option_map fst rbind].
  - unfold Full_Next. cbn [f_cur cur_next snd fst f_end app cur_entry].
    replace (bytes_eqb metadataKey metadataKey) with true by (symmetry; apply bytes_eqb_eq; reflexivity). cbn [rbind].
    destruct fuel as [|fuel]; [cbn in Hfuel; lia|]. cbn [full_loop]. unfold Full_HasNext, f_key. cbn [f_cur cur_entry snd option_map fst f_end].
    replace (bytes_leb metadataKey metadataKey) with true by (vm_compute; reflexivity).
    unfold dump_body at 1, f_key. cbn [f_cur cur_entry snd option_map fst rbind].
    unfold Full_Next. cbn [f_cur cur_next snd fst f_end app cur_entry rbind].
    destruct fuel as [|fuel]; [cbn in Hfuel; lia|]. cbn [full_loop]. unfold Full_HasNext, f_key. cbn [f_cur cur_entry snd option_map].
    eexists. f_equal. f_equal. cbn [dump_text]. rewrite app_nil_r, <- !app_assoc. reflexivity.
  - destruct (Hall (k1, v1) (or_intror (or_introl eq_refl))) as [Hlt1 [d1 Hd1]]. cbn [fst snd] in *. destruct (LB _ Hlt1) as [HB1 HE1].
    unfold Full_Next. cbn [f_cur cur_next snd fst f_end app cur_entry]. rewrite HE1, Hd1. cbn [rbind].
    destruct (IH (k1, v1) d1 ((k0, v0) :: before) (ik_Owner k0) (text ++ (if ik_Owner k0 =? last then [] else str "owner "%string ++ dec (ik_Owner k0) ++ [x0a]) ++ Key_String (ik_Key k0) ++ str " @ "%string ++ dec (ik_Generation k0) ++ [x0a]) fuel) as (l' & E);
      [intros e He; apply Hall; right; exact He|cbn [length] in Hfuel; lia|].
    exists l'. etransitivity; [exact E|]. f_equal. f_equal. cbn [app]. rewrite <- !app_assoc. change (dump_text (Some last) ((k0, v0) :: (k1, v1) :: es ++ [(metadataKey, m)])) with ((if ik_Owner k0 =? last then [] else str "owner "%string ++ dec (ik_Owner k0) ++ [x0a]) ++
      Key_String (ik_Key k0) ++ str " @ "%string ++ dec (ik_Generation k0) ++ [x0a] ++ dump_text (Some (ik_Owner k0)) ((k1, v1) :: es ++ [(metadataKey, m)])). reflexivity.
Qed.
(** C66.  dump-index prints every entry once, in index order, each owner's under a heading;
    the index's own metadata record is printed too, as the last entry. *)
Theorem C66_dump_partial es m fuel : es <> [] -> wf_bucket (es ++ [(metadataKey, m)]) ->
  (forall e, In e es -> exists d, valueData (snd e) = Ok d) ->
  (forall e, In e es -> ik_Owner (fst e) <> 2^64 - 1) ->
  (length es + 2 < fuel)%nat ->
  doDumpIndex fuel (es ++ [(metadataKey, m)]) (2^64 - 1) = Ok (dump_text None (es ++ [(metadataKey, m)])).
Proof.
  intros Hne W HD HO Hfuel. destruct es as [|[k0 v0] es]; [contradiction|].
  assert (Hlt : forall e, In e ((k0, v0) :: es) -> bytes_ltb (fst e) metadataKey = true).
  { intros e He. destruct (wf_app_inv _ _ W) as (Wa & _ & H). specialize (H e (metadataKey, m) He (or_introl eq_refl)).
    rewrite ltb33 by (try apply newIndexKey_length; apply (wf_len _ e Wa He)). unfold en in H. cbn [fst] in H. lia. }
  destruct (HD (k0, v0) (or_introl eq_refl)) as [d Hd]. cbn [snd] in Hd.
  unfold doDumpIndex, mkFullRange. cbn [app]. rewrite Hd. cbn [rbind].
  change (newIndexKey max64 KL0 (2 ^ 64 - 1)) with metadataKey.
  destruct (full_loop_dump m es (k0, v0) d [] max64 [] fuel) as (l' & E); [intros e He; split; [exact (Hlt e He)|exact (HD e He)]|cbn [length] in Hfuel; lia|].
  refine (eq_trans (f_equal (fun r => rbind r _) E) _). cbn [rbind]. f_equal. cbn [app dump_text]. specialize (HO (k0, v0) (or_introl eq_refl)). cbn [fst] in HO. replace (ik_Owner k0 =? max64) with false by (unfold max64; lia). reflexivity.
Qed.
(** an index without items makes it abort; items of owner 2^64-1 come without a heading; and the
    metadata record is always shown as an entry *)
Theorem C66_empty_refuted : exists b, opened b /\ forall fuel, doDumpIndex fuel b (2^64 - 1) = Panic.
Proof. exists (mkb []). split; [apply opened_ok; vm_compute; reflexivity|]. intros fuel. vm_compute. reflexivity. Qed.
Theorem C66_heading_refuted : exists b t, opened b /\ doDumpIndex 9 b (2^64 - 1) = Ok t /\ dump_text None b = str "owner 18446744073709551615"%string ++ [x0a] ++ t.
Proof. exists (mkb [(2^64-1, mkKey 1 1 0, 7, itemv [x01])]). eexists. split; [apply opened_ok; vm_compute; reflexivity|]. split; vm_compute; reflexivity. Qed.
Theorem C66_metadata_refuted : exists b t, opened b /\ length b = 2%nat /\ doDumpIndex 9 b (2^64 - 1) =
  Ok (t ++ str "owner 18446744073709551615"%string ++ [x0a] ++ str "key (LAST_FREE 255 -1) @ 18446744073709551615"%string ++ [x0a]) /\
  t = str "owner 5"%string ++ [x0a] ++ str "key (FIRST_FREE INODE_ITEM 0) @ 7"%string ++ [x0a].
Proof. exists (mkb [(5, mkKey 256 1 0, 7, itemv [x01])]). eexists. split; [apply opened_ok; vm_compute; reflexivity|]. split; [reflexivity|]. split; [|reflexivity]. vm_compute. reflexivity. Qed.
Example C66_ex : exists es m, b19u = es ++ [(metadataKey, m)] /\ es <> [] /\ wf_bucket b19u /\
  (forall e, In e es -> exists d, valueData (snd e) = Ok d) /\ (forall e, In e es -> ik_Owner (fst e) <> 2^64 - 1).
Proof.
  destruct C23_ex as (es & m & A & B & C & D). exists es, m. split; [exact A|]. split; [exact B|]. split; [exact C|]. split; [exact D|].
  assert (HE : es = firstn 4 b19u). { assert (L : length es = 4%nat). { assert (H : length b19u = 5%nat) by (vm_compute; reflexivity). rewrite A, app_length in H. cbn [length] in H. lia. }
    rewrite A, <- L, firstn_app, Nat.sub_diag, firstn_all, app_nil_r. reflexivity. }
  intros e He. rewrite HE in He. assert (H : forallb (fun e => negb (ik_Owner (fst e) =? 2^64 - 1)) (firstn 4 b19u) = true) by (vm_compute; reflexivity).
  rewrite forallb_forall in H. specialize (H e He). lia.
Qed.
Print Assumptions C66_dump_partial. Print Assumptions C66_empty_refuted. Print Assumptions C66_heading_refuted. Print Assumptions C66_metadata_refuted.
