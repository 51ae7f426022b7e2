(** C59-C61: the ls command. *)
From Verif Require Import Go GoProofs Layout LayoutProofs SpecLayout StructProofs PropsLayout KeyFmt KeyProofs Bolt Store StoreProofs SpecStore PropsStore MkIndex IoUtil Fs Recover SpecContent Conc PropsConc Rescue.
From Verif Require Import PropsRange PropsPath PropsRecoverDfs PropsRecoverFile PropsRecoverEx PropsRescueRead PropsRescueNode ToString Ls.
From Coq Require Import Permutation Sorted.
From Coq Require Import ZifyBool ZifyNat ZifyN.
Ltac Zify.zify_post_hook ::= Z.div_mod_to_equations.

(** ** C59: modes and types *)
(** the usual nine characters: bit 8 (owner may read) first *)
Definition perm_letters : list byte := [x72; x77; x78].   (* "rwx" *)
Definition shown_perms (mode : Z) : list byte :=
  map (fun i => if Z.testbit mode (8 - Z.of_nat i) then nth (Nat.modulo i 3) perm_letters x00 else x2d) (seq 0 9).
(** the type letters: regular file, block device, character device, directory, link, fifo, socket *)
Definition type_letters : list (Z * byte) := [(1, x2d); (4, x62); (3, x63); (2, x64); (7, x6c); (5, x70); (6, x73)].

Lemma land7 x : Z.land x 7 = x mod 8.
Proof. change 7 with (Z.ones 3). rewrite Z.land_ones by lia. reflexivity. Qed.
Lemma mode_mod mode : inodeModeString mode = inodeModeString (mode mod 512).
Proof.
  unfold inodeModeString. rewrite !land7, !Z.shiftr_div_pow2 by lia. change (2^6) with 64. change (2^3) with 8.
  replace (mode mod 512 / 64 mod 8) with (mode / 64 mod 8) by lia.
  replace (mode mod 512 / 8 mod 8) with (mode / 8 mod 8) by lia.
  replace (mode mod 512 mod 8) with (mode mod 8) by lia. reflexivity.
Qed.
Lemma shown_mod mode : shown_perms mode = shown_perms (mode mod 512).
Proof.
  unfold shown_perms. apply map_ext_in. intros i Hi. apply in_seq in Hi. change 512 with (2^9). rewrite Z.mod_pow2_bits_low by lia. reflexivity.
Qed.
Lemma all512 (P : Z -> bool) : forallb (fun n => P (Z.of_nat n)) (seq 0 512) = true -> forall m, P (m mod 512) = true.
Proof.
  intros H m. rewrite forallb_forall in H. specialize (H (Z.to_nat (m mod 512))). rewrite Z2Nat.id in H by lia. apply H. apply in_seq. lia.
Qed.
Theorem C59_mode mode : inodeModeString mode = Ok (shown_perms mode).
Proof.
  rewrite mode_mod, shown_mod.
  pose proof (all512 (fun m => match inodeModeString m with Ok s => bytes_eqb s (shown_perms m) | _ => false end) ltac:(vm_compute; reflexivity) mode) as H. cbv beta in H.
  destruct (inodeModeString (mode mod 512)) as [s| |]; try discriminate. apply bytes_eqb_eq in H. subst s. reflexivity.
Qed.
(** the string determines the nine permission bits, and they determine it *)
Definition unshow (s : list byte) : Z := fold_left (fun a c => 2 * a + if beqb c x2d then 0 else 1) s 0.
Theorem C59_distinct m1 m2 : inodeModeString m1 = inodeModeString m2 <-> (forall i, 0 <= i < 9 -> Z.testbit m1 i = Z.testbit m2 i).
Proof.
  rewrite !C59_mode. split.
  - intros H. assert (HE : m1 mod 512 = m2 mod 512).
    { pose proof (all512 (fun m => unshow (shown_perms m) =? m) ltac:(vm_compute; reflexivity) m1) as A.
      pose proof (all512 (fun m => unshow (shown_perms m) =? m) ltac:(vm_compute; reflexivity) m2) as B. cbv beta in A, B.
      rewrite <- shown_mod in A, B. assert (shown_perms m1 = shown_perms m2) by congruence. rewrite <- H0 in B. lia. }
    intros i Hi. rewrite <- (Z.mod_pow2_bits_low m1 9 i), <- (Z.mod_pow2_bits_low m2 9 i) by lia. change (2^9) with 512. rewrite HE. reflexivity.
  - intros H. unfold shown_perms. f_equal. apply map_ext_in. intros i Hi. apply in_seq in Hi. rewrite H by lia. reflexivity.
Qed.
Theorem C59_type t : dirItemTypeString t = match List.find (fun e => fst e =? t) type_letters with Some e => [snd e] | None => [x3f] end.
Proof.
  unfold dirItemTypeString, type_letters, FtRegFile, FtBlkdev, FtChrdev, FtDir, FtSymlink, FtFifo, FtSock. cbn [List.find fst snd].
  rewrite (Z.eqb_sym t 1), (Z.eqb_sym t 4), (Z.eqb_sym t 3), (Z.eqb_sym t 2), (Z.eqb_sym t 7), (Z.eqb_sym t 5), (Z.eqb_sym t 6).
  destruct (1 =? t); [reflexivity|]. destruct (4 =? t); [reflexivity|]. destruct (3 =? t); [reflexivity|]. destruct (2 =? t); [reflexivity|].
  destruct (7 =? t); [reflexivity|]. destruct (5 =? t); [reflexivity|]. destruct (6 =? t); reflexivity.
Qed.
Theorem C59_type_distinct t u : In t (map fst type_letters) -> dirItemTypeString t = dirItemTypeString u -> t = u.
Proof.
  rewrite !C59_type. intros H. destruct (List.find (fun e => fst e =? u) type_letters) as [e|] eqn:E.
  - apply find_some in E as [Hin Heq]. unfold type_letters in *. cbn [map fst In] in H, Hin.
    apply Z.eqb_eq in Heq. subst u. decompose [or] H; decompose [or] Hin; try contradiction; subst; cbn; intros Hx; try discriminate Hx; reflexivity.
  - unfold type_letters in H. cbn [map fst In] in H. repeat (destruct H as [<-|H]; [discriminate|]). destruct H.
Qed.
Example C59_ex : inodeModeString 0x81ed = Ok [x72;x77;x78;x72;x2d;x78;x72;x2d;x78] /\ inodeModeString 0x89a0 = Ok [x72;x77;x2d;x72;x2d;x2d;x2d;x2d;x2d] /\
  dirItemTypeString 7 = [x6c] /\ dirItemTypeString 200 = [x3f].
Proof. split; [|split; [|split]]; vm_compute; reflexivity. Qed.
Print Assumptions C59_mode. Print Assumptions C59_distinct. Print Assumptions C59_type. Print Assumptions C59_type_distinct.

(** ** C60: order of a listing *)
(** strings compare byte by byte *)
Definition lex_lt (a b : list byte) : Prop :=
  exists p, (exists y s, a = p /\ b = p ++ y :: s) \/ (exists x r y s, a = p ++ x :: r /\ b = p ++ y :: s /\ bz x < bz y).
Definition is_dir (d : d_dir_item) : bool := di_type d =? 2.
(** must come before: files before directories, then by name *)
Definition ls_before (a b : d_dir_item) : Prop :=
  (is_dir a = false /\ is_dir b = true) \/ (is_dir a = is_dir b /\ lex_lt (di_name a) (di_name b)).
Lemma ltb_lex a b : bytes_ltb a b = true <-> lex_lt a b.
Proof.
  unfold bytes_ltb. split.
  - revert b. induction a as [|x a IH]; intros [|y b] H; cbn [bytes_cmp] in H; try discriminate.
    + exists []. left. exists y, b. auto.
    + destruct (bz x ?= bz y) eqn:E; try discriminate.
      * apply Z.compare_eq in E. apply bz_inj in E. subst y. destruct (IH b H) as (p & [(y & s & A & B)|(x' & r & y & s & A & B & C)]); exists (x :: p).
        -- left. exists y, s. subst. auto.
        -- right. exists x', r, y, s. subst. auto.
      * exists []. right. exists x, a, y, b. rewrite Z.compare_lt_iff in E. auto.
  - intros (p & H). revert a b H. induction p as [|c p IH]; intros a b H.
    + destruct H as [(y & s & A & B)|(x & r & y & s & A & B & C)]; subst; cbn [app bytes_cmp]; [reflexivity|]. apply Z.compare_lt_iff in C. rewrite C. reflexivity.
    + destruct H as [(y & s & A & B)|(x & r & y & s & A & B & C)]; subst; cbn [app bytes_cmp]; rewrite Z.compare_refl; apply IH; [left; eauto|right; exists x, r, y, s; auto].
Qed.
Lemma lex_irrefl a : ~ lex_lt a a.
Proof. rewrite <- ltb_lex. unfold bytes_ltb. replace (bytes_cmp a a) with Eq; [discriminate|]. symmetry. apply bytes_cmp_eq. reflexivity. Qed.
Lemma lex_trans a b c : lex_lt a b -> lex_lt b c -> lex_lt a c.
Proof.
  rewrite <- !ltb_lex. unfold bytes_ltb. pose proof (bytes_cmp_lt_trans a b c). destruct (bytes_cmp a b); try discriminate. destruct (bytes_cmp b c); try discriminate. rewrite H; auto.
Qed.
Lemma lex_total a b : lex_lt a b \/ a = b \/ lex_lt b a.
Proof.
  rewrite <- !ltb_lex. unfold bytes_ltb. rewrite (bytes_cmp_antisym a b). destruct (bytes_cmp a b) eqn:E; cbn [CompOpp]; auto. right. left. apply bytes_cmp_eq. exact E.
Qed.
(** the order is a strict weak order; two items it does not order have the same name *)
Theorem C60_strict_weak_order : (forall a, ~ ls_before a a) /\ (forall a b c, ls_before a b -> ls_before b c -> ls_before a c) /\
  (forall a b, ls_before a b \/ (is_dir a = is_dir b /\ di_name a = di_name b) \/ ls_before b a).
Proof.
  split; [|split].
  - intros a [(A & B)|(_ & A)]; [congruence|exact (lex_irrefl _ A)].
  - intros a b c [(A & B)|(A & B)] [(C & D)|(C & D)]; unfold ls_before; [left; split; congruence|left; split; congruence|left; split; congruence|].
    right. split; [congruence|exact (lex_trans _ _ _ B D)].
  - intros a b. unfold ls_before. destruct (is_dir a) eqn:EA, (is_dir b) eqn:EB; try (destruct (lex_total (di_name a) (di_name b)) as [H|[H|H]]; auto; fail); auto.
Qed.
(** Less decides it *)
Definition item_for (s : slice) (d : d_dir_item) : Prop := carries s (dir_item_fields d) /\ zlen (di_name d) <= 255.
Lemma item_type s d : item_for s d -> DirItem_Type s = Ok (di_type d) /\ DirItem_IsDir s = Ok (is_dir d) /\
  (exists l, DirItem_Location s = Ok l /\ ObjectID l = k_objectid (di_location d) /\ KType l = k_type (di_location d)).
Proof.
  intros [HC _]. destruct (C06_dir_item d s HC) as (H1 & _ & _ & _ & H5 & H6 & _). split; [exact H5|]. split; [exact H6|]. eexists. split; [exact H1|]. split; reflexivity.
Qed.
Lemma Less_spec s t a b : item_for s a -> item_for t b -> exists r, Less s t = Ok r /\ (r = true <-> ls_before a b).
Proof.
  intros HA HB. destruct (item_type s a HA) as (_ & DA & _). destruct (item_type t b HB) as (_ & DB & _). unfold Less. rewrite DA, DB. cbn [rbind].
  rewrite (carries_name s a (proj1 HA) (proj2 HA)), (carries_name t b (proj1 HB) (proj2 HB)). cbn [rbind]. unfold ls_before.
  destruct (is_dir a), (is_dir b); cbn [negb andb].
  - eexists. split; [reflexivity|]. rewrite ltb_lex. split; [right; auto|intros [(? & ?)|(_ & H)]; [discriminate|exact H]].
  - exists false. split; [reflexivity|]. split; [discriminate|intros [(? & ?)|(? & ?)]; discriminate].
  - exists true. split; [reflexivity|]. split; [left; auto|reflexivity].
  - eexists. split; [reflexivity|]. rewrite ltb_lex. split; [right; auto|intros [(? & ?)|(_ & H)]; [discriminate|exact H]].
Qed.
(** what sort.Sort promises: given a strict weak order, some sorted permutation *)
Definition less_ok (l : list slice) : Prop :=
  (forall a b, In a l -> In b l -> exists r, Less a b = Ok r) /\
  (forall a, In a l -> Less a a = Ok false) /\
  (forall a b c, In a l -> In b l -> In c l -> Less a b = Ok true -> Less b c = Ok true -> Less a c = Ok true) /\
  (forall a b c, In a l -> In b l -> In c l -> Less a b = Ok true -> Less a c = Ok true \/ Less c b = Ok true).
Definition sorter (sort : list slice -> Res (list slice)) : Prop := forall l, less_ok l ->
  exists l', sort l = Ok l' /\ Permutation l l' /\ StronglySorted (fun a b => Less b a = Ok false) l'.
(** the specification of a sorted listing *)
Definition ls_sorted (ds : list d_dir_item) : Prop := StronglySorted (fun a b => ~ ls_before b a) ds.
Lemma Forall2_In_l {A B} (P : A -> B -> Prop) l m : Forall2 P l m -> forall x, In x l -> exists y, In y m /\ P x y.
Proof. induction 1 as [|a b l m H F IH]; [intros x []|]. intros x [<-|Hx]; [exists b; split; [left; reflexivity|exact H]|]. destruct (IH x Hx) as (y & A1 & A2). exists y. split; [right; exact A1|exact A2]. Qed.
Lemma less_ok_items l ds : Forall2 item_for l ds -> less_ok l.
Proof.
  intros HF. destruct C60_strict_weak_order as (O1 & O2 & O3). pose proof (Forall2_In_l _ _ _ HF) as HI.
  assert (HL : forall a b x y, item_for a x -> item_for b y -> Less a b = Ok true -> ls_before x y).
  { intros a b x y HA HB H. destruct (Less_spec a b x y HA HB) as (r & E & Hr). apply Hr. congruence. }
  assert (HR : forall a b x y, item_for a x -> item_for b y -> ls_before x y -> Less a b = Ok true).
  { intros a b x y HA HB H. destruct (Less_spec a b x y HA HB) as (r & E & Hr). apply Hr in H. congruence. }
  split; [|split; [|split]].
  - intros a b Ha Hb. destruct (HI a Ha) as (x & _ & Hx). destruct (HI b Hb) as (y & _ & Hy). destruct (Less_spec a b x y Hx Hy) as (r & E & _). eauto.
  - intros a Ha. destruct (HI a Ha) as (x & _ & Hx). destruct (Less_spec a a x x Hx Hx) as (r & E & Hr). rewrite E. destruct r; [|reflexivity]. destruct (O1 x). apply Hr. reflexivity.
  - intros a b c Ha Hb Hc H1 H2. destruct (HI a Ha) as (x & _ & Hx). destruct (HI b Hb) as (y & _ & Hy). destruct (HI c Hc) as (z & _ & Hz).
    apply (HR a c x z Hx Hz). exact (O2 x y z (HL a b x y Hx Hy H1) (HL b c y z Hy Hz H2)).
  - intros a b c Ha Hb Hc H1. destruct (HI a Ha) as (x & _ & Hx). destruct (HI b Hb) as (y & _ & Hy). destruct (HI c Hc) as (z & _ & Hz).
    pose proof (HL a b x y Hx Hy H1) as B. destruct (O3 x z) as [H|[(E1 & E2)|H]]; [left; exact (HR a c x z Hx Hz H)| |].
    + right. apply (HR c b z y Hz Hy). unfold ls_before in *. rewrite <- E1, <- E2. exact B.
    + right. apply (HR c b z y Hz Hy). exact (O2 _ _ _ H B).
Qed.
Lemma Forall2_perm {A B} (P : A -> B -> Prop) l l' : Permutation l l' -> forall m, Forall2 P l m -> exists m', Permutation m m' /\ Forall2 P l' m'.
Proof.
  induction 1 as [|x l l' H IH|x y l|l l' l'' H1 IH1 H2 IH2]; intros m HF.
  - exists m. split; [apply Permutation_refl|exact HF].
  - inversion HF as [|? b ? m1 Hb HF']; subst. destruct (IH m1 HF') as (m' & P1 & P2). exists (b :: m'). split; [apply perm_skip; exact P1|constructor; assumption].
  - inversion HF as [|? b ? m1 Hb HF']; subst. inversion HF' as [|? c ? m2 Hc HF'']; subst. exists (c :: b :: m2). split; [apply perm_swap|repeat constructor; assumption].
  - destruct (IH1 m HF) as (m' & P1 & P2). destruct (IH2 m' P2) as (m'' & P3 & P4). exists m''. split; [exact (perm_trans P1 P3)|exact P4].
Qed.
Lemma sorted_items sort l ds : sorter sort -> Forall2 item_for l ds -> exists l' ds', sort l = Ok l' /\ Forall2 item_for l' ds' /\ Permutation ds ds' /\ ls_sorted ds'.
Proof.
  intros HS HF. destruct (HS l (less_ok_items l ds HF)) as (l' & E & HP & HO). destruct (Forall2_perm _ _ _ HP ds HF) as (ds' & P1 & P2). exists l', ds'.
  split; [exact E|]. split; [exact P2|]. split; [exact P1|]. clear - HO P2. revert ds' P2. induction HO as [|s l HO IH HF]; intros ds P2; inversion P2 as [|? d ? ds1 Hd P3]; subst; constructor.
  - apply IH. exact P3.
  - apply Forall_forall. intros d' Hd' HB. assert (HX : exists s', In s' l /\ item_for s' d').
    { clear - P3 Hd'. induction P3 as [|a b l m H F IH]; [destruct Hd'|]. destruct Hd' as [<-|Hx]; [exists a; split; [left; reflexivity|exact H]|]. destruct (IH Hx) as (y & A1 & A2). exists y. split; [right; exact A1|exact A2]. }
    destruct HX as (s' & Hs' & Hi'). rewrite Forall_forall in HF. specialize (HF s' Hs'). destruct (Less_spec s' s d' d Hi' Hd) as (r & E & Hr). apply Hr in HB. congruence.
Qed.

(** ** the text *)
(** the inode items of tree [owner] *)
Definition inodes_are (q : queries) (owner : Z) (inodes : Z -> option d_inode) : Prop := forall i,
  match inodes i with Some d => has_inode q owner i d | None => q_inode q owner i = Ok None end.
Section Spec.
  Variable shortTime : Z * Z -> list byte.
  Variable inodes : Z -> option d_inode.
  Variable showInode : bool.
  Definition q9 : list byte := repeat x3f 9.
  Definition columns (l : list (list byte)) : list byte := concat (map (fun c => x09 :: c) l).
  (** inode number if asked for; type and permissions; link count, owner, group, size, time; name *)
  Definition ls_line (d : d_dir_item) : list byte :=
    let i := k_objectid (di_location d) in
    (if showInode then dec i ++ [x09] else []) ++ dirItemTypeString (di_type d) ++
    match inodes i with
    | Some n => shown_perms (in_mode n) ++ columns [dec (in_nlink n); dec (in_uid n); dec (in_gid n); dec (in_size n); shortTime (ts_sec (in_ctime n), ts_nsec (in_ctime n))]
    | None => q9 ++ columns [[x3f]; [x3f]; [x3f]; [x3f]; [x3f]]
    end ++ columns [di_name d] ++ [x0a].
End Spec.
Lemma listDirItem_line st q owner inodes show s d : inodes_are q owner inodes -> item_for s d ->
  listDirItem st q owner s show = Ok (ls_line st inodes show d).
Proof.
  intros HI HD. destruct (item_type s d HD) as (T & _ & l & L & LO & _). unfold listDirItem, ls_line. rewrite L. cbn [rbind]. rewrite T. cbn [rbind]. rewrite LO.
  specialize (HI (k_objectid (di_location d))). destruct (inodes (k_objectid (di_location d))) as [n|].
  - destruct HI as (ii & HQ & HC & HT). rewrite HQ. cbn [rbind]. destruct (C06_inode_item n ii HC HT) as (_ & _ & H3 & _ & H5 & H6 & H7 & H8 & H9 & _ & _ & _ & A & C & M & _).
    rewrite H8. cbn [rbind]. rewrite C59_mode. cbn [rbind]. rewrite H5, H6, H7, H3, C. cbn [rbind]. rewrite (carries_name s d (proj1 HD) (proj2 HD)). cbn [rbind].
    unfold columns. cbn [map concat]. rewrite !app_nil_r. repeat (rewrite <- ?app_assoc; cbn [app]). reflexivity.
  - rewrite HI. cbn [rbind]. rewrite (carries_name s d (proj1 HD) (proj2 HD)). cbn [rbind]. unfold columns, q9, no_inode. cbn [map concat].
    rewrite !app_nil_r. rewrite <- ?app_assoc. reflexivity.
Qed.
Lemma list_items_spec st q owner inodes rec show : inodes_are q owner inodes -> forall l ds, Forall2 item_for l ds ->
  exists todo, list_items st q owner rec show l = Ok (concat (map (ls_line st inodes show) ds), todo) /\
    Forall2 item_for todo (if rec then filter is_dir ds else []).
Proof.
  intros HI. induction 1 as [|s d l ds HD HF IH]; cbn [list_items]; [exists []; split; [reflexivity|destruct rec; constructor]|].
  rewrite (listDirItem_line st q owner inodes show s d HI HD). cbn [rbind]. destruct IH as (todo & E & HT). destruct (item_type s d HD) as (_ & D & _).
  destruct rec; [rewrite D|]; cbn [rbind]; rewrite E; cbn [rbind].
  - cbn [filter]. destruct (is_dir d); eexists; (split; [reflexivity|]); [constructor; assumption|exact HT].
  - eexists. split; [reflexivity|exact HT].
Qed.
(** C60.  A directory is listed as one line per dir item, files first, then by name, whatever
    the sorting algorithm. *)
Theorem C60_listing_partial st sort q owner inodes dir ds show fuel : sorter sort -> inodes_are q owner inodes -> dir_holds q owner dir ds ->
  exists ds', Permutation ds ds' /\ ls_sorted ds' /\
    listDirectory st sort (S fuel) q owner dir false show = Ok (concat (map (ls_line st inodes show) ds')).
Proof.
  intros HS HI (HE & HD). assert (HF : Forall2 item_for (map snd (st_items (q_dirItems q owner dir))) ds).
  { clear - HD. induction HD; cbn [map]; constructor; assumption. }
  destruct (sorted_items sort _ ds HS HF) as (l' & ds' & E & HF' & HP & HO). exists ds'. split; [exact HP|]. split; [exact HO|]. cbn [listDirectory]. rewrite HE. cbn [rbind]. rewrite E. cbn [rbind].
  destruct (list_items_spec st q owner inodes false show HI l' ds' HF') as (todo & E2 & HT). rewrite E2. cbn [rbind]. inversion HT; subst. cbn [list_todo rbind]. rewrite app_nil_r. reflexivity.
Qed.

(** ** C61: recursive listings *)
Section Tree.
  Variable shortTime : Z * Z -> list byte.
  Variable inodes : Z -> option d_inode.
  Variable showInode : bool.
  (** the dir items of each directory *)
  Variable contents : Z -> list d_dir_item.
  Definition target (d : d_dir_item) : Z := k_objectid (di_location d).
  (** a directory's lines, then each subdirectory under its name, in the same order *)
  Inductive ls_text : bool -> Z -> list byte -> Prop :=
  | ls_text_dir rec dir ds subs : Permutation (contents dir) ds -> ls_sorted ds ->
      Forall2 (fun d t => ls_text true (target d) t) (if rec : bool then filter is_dir ds else []) subs ->
      ls_text rec dir (concat (map (ls_line shortTime inodes showInode) ds) ++
        concat (map (fun p => di_name (fst p) ++ [x3a; x0a] ++ snd p) (combine (filter is_dir ds) subs))).
  (** [c] is a subdirectory of [p] *)
  Definition subdir (c p : Z) : Prop := exists d, In d (contents p) /\ is_dir d = true /\ target d = c.
End Tree.
Section Recursive.
  Variables (st : Z * Z -> list byte) (sort : list slice -> Res (list slice)) (q : queries) (owner : Z)
    (inodes : Z -> option d_inode) (contents : Z -> list d_dir_item) (show : bool).
  Hypothesis HS : sorter sort.
  Hypothesis HI : inodes_are q owner inodes.
  Hypothesis HC : forall dir, dir_holds q owner dir (contents dir).
  Lemma todo_spec (f : Z -> Res (list byte)) (P : d_dir_item -> list byte -> Prop) : forall todo ds, Forall2 item_for todo ds ->
    (forall d, In d ds -> f (target d) = Timeout \/ exists t, f (target d) = Ok t /\ P d t) ->
    (list_todo f todo = Timeout /\ exists d, In d ds /\ f (target d) = Timeout) \/
    exists subs, list_todo f todo = Ok (concat (map (fun p => di_name (fst p) ++ [x3a; x0a] ++ snd p) (combine ds subs))) /\ Forall2 (fun d t => f (target d) = Ok t /\ P d t) ds subs.
  Proof using.
    clear. induction 1 as [|s d l ds HD HF IH]; intros HP; cbn [list_todo]; [right; exists []; split; [reflexivity|constructor]|].
    destruct (item_type s d HD) as (_ & _ & loc & L & LO & _). rewrite (carries_name s d (proj1 HD) (proj2 HD)), L. cbn [rbind]. rewrite LO.
    destruct (HP d (or_introl eq_refl)) as [HT|(t & HT & HPt)]; unfold target in HT; rewrite HT; cbn [rbind]; [left; split; [reflexivity|exists d; split; [left; reflexivity|exact HT]]|].
    destruct IH as [(E & d' & Hd' & Ht')|(subs & E & HF')]; [intros d' Hd'; apply HP; right; exact Hd'| |]; rewrite E; cbn [rbind].
    - left. split; [reflexivity|]. exists d'. split; [right; exact Hd'|exact Ht'].
    - right. exists (t :: subs). split; [|constructor; [split; [exact HT|exact HPt]|exact HF']]. cbn [combine map concat fst snd]. f_equal. rewrite <- !app_assoc. reflexivity.
  Qed.
  Definition run (rec : bool) (fuel : nat) (dir : Z) : Res (list byte) := listDirectory st sort fuel q owner dir rec show.
  (** one step: the listing of a directory in terms of those of its subdirectories *)
  Lemma step rec dir : exists ds, Permutation (contents dir) ds /\ ls_sorted ds /\ forall fuel P,
    (forall d, In d ds -> is_dir d = true -> run true fuel (target d) = Timeout \/ exists t, run true fuel (target d) = Ok t /\ P d t) ->
    (run rec (S fuel) dir = Timeout /\ rec = true /\ exists d, In d ds /\ is_dir d = true /\ run true fuel (target d) = Timeout) \/
    exists subs, run rec (S fuel) dir = Ok (concat (map (ls_line st inodes show) ds) ++ concat (map (fun p => di_name (fst p) ++ [x3a; x0a] ++ snd p) (combine (filter is_dir ds) subs))) /\
      Forall2 (fun d t => run true fuel (target d) = Ok t /\ P d t) (if rec then filter is_dir ds else []) subs.
  Proof using HS HI HC.
    destruct (HC dir) as (HE & HD). assert (HF : Forall2 item_for (map snd (st_items (q_dirItems q owner dir))) (contents dir)).
    { clear - HD. induction HD; cbn [map]; constructor; assumption. }
    destruct (sorted_items sort _ (contents dir) HS HF) as (l' & ds & E & HF' & HP & HO). exists ds. split; [exact HP|]. split; [exact HO|]. intros fuel P HPd. change (run rec (S fuel) dir) with (listDirectory st sort (S fuel) q owner dir rec show). cbn [listDirectory]. rewrite HE. cbn [rbind]. rewrite E. cbn [rbind].
    destruct (list_items_spec st q owner inodes rec show HI l' ds HF') as (todo & E2 & HT). rewrite E2. cbn [rbind].
    destruct (todo_spec (fun d => listDirectory st sort fuel q owner d true show) P todo _ HT) as [(E3 & d & Hd & Ht)|(subs & E3 & HF3)].
    - intros d Hd. destruct rec; [|destruct Hd]. apply filter_In in Hd. apply HPd; apply Hd.
    - left. rewrite E3. split; [reflexivity|]. destruct rec; [|destruct Hd]. split; [reflexivity|]. apply filter_In in Hd as [H1 H2]. exists d. auto.
    - right. exists subs. rewrite E3. split; [|exact HF3]. cbn [rbind]. destruct rec; [reflexivity|]. inversion HF3; subst. destruct (filter is_dir ds); reflexivity.
  Qed.
  Lemma run_text fuel : forall rec dir, run rec fuel dir = Timeout \/ exists t, run rec fuel dir = Ok t /\ ls_text st inodes show contents rec dir t.
  Proof using HS HI HC.
    induction fuel as [|fuel IH]; intros rec dir; [left; reflexivity|].
    destruct (step rec dir) as (ds & HP & HO & H). destruct (H fuel (fun d t => ls_text st inodes show contents true (target d) t)) as [(E & _)|(subs & E & HF)]; [intros d _ _; apply IH|left; exact E|].
    right. eexists. split; [exact E|]. constructor; [exact HP|exact HO|]. clear - HF. induction HF as [|d t l l' [_ H] _ IH]; constructor; assumption.
  Qed.
  Lemma run_mono fuel : forall rec dir t, run rec fuel dir = Ok t -> run rec (S fuel) dir = Ok t.
  Proof using HS HI HC.
    induction fuel as [|fuel IH]; intros rec dir t H; [discriminate|].
    destruct (step rec dir) as (ds & HP & HO & HStep).
    destruct (HStep fuel (fun _ _ => True)) as [(E & _)|(subs & E & HF)]; [intros d _ _; destruct (run_text fuel true (target d)) as [|(t' & A & _)]; eauto|congruence|].
    destruct (HStep (S fuel) (fun d t => run true fuel (target d) = Ok t \/ run true fuel (target d) = Timeout)) as [(E' & Er & d & Hd & Hdir & Ht)|(subs' & E' & HF')].
    - intros d _ _. destruct (run_text fuel true (target d)) as [HT|(t' & A & _)].
      + destruct (run_text (S fuel) true (target d)) as [HT'|(t' & A & _)]; eauto.
      + right. exists t'. split; [apply IH; exact A|left; exact A].
    - exfalso. subst rec. assert (HX : exists t0, run true fuel (target d) = Ok t0).
      { clear - HF Hd Hdir. assert (Hin : In d (filter is_dir ds)) by (apply filter_In; auto). destruct (Forall2_In_l _ _ _ HF d Hin) as (t0 & _ & H & _). eauto. }
      destruct HX as (t0 & HX). rewrite (IH _ _ _ HX) in Ht. discriminate.
    - rewrite E'. assert (subs' = subs).
      { clear - HF HF'. revert subs' HF'. induction HF as [|d t l l' [H _] _ IH]; intros subs' HF'; inversion HF' as [|? t' ? ? [A B] HF'']; subst; [reflexivity|].
        f_equal; [|apply IH; exact HF'']. destruct B as [B|B]; congruence. }
      subst subs'. congruence.
  Qed.
  Lemma run_mono_le rec dir t a b : (a <= b)%nat -> run rec a dir = Ok t -> run rec b dir = Ok t.
  Proof using HS HI HC. induction 1 as [|b _ IH]; intros H; [exact H|]. apply run_mono. apply IH. exact H. Qed.
  Lemma terminates_acc fuel : forall dir, run true fuel dir <> Timeout -> Acc (subdir contents) dir.
  Proof using HS HI HC.
    induction fuel as [|fuel IH]; intros dir H; [destruct (H eq_refl)|]. constructor. intros c (d & Hd & Hdir & Ht). subst c. apply IH. intros HT.
    destruct (step true dir) as (ds & HP & HO & HStep). destruct (HStep fuel (fun _ _ => True)) as [(E & _)|(subs & _ & HF)]; [intros d' _ _; destruct (run_text fuel true (target d')) as [|(t' & A & _)]; eauto|congruence|].
    assert (Hin : In d (filter is_dir ds)) by (apply filter_In; split; [exact (Permutation_in _ HP Hd)|exact Hdir]).
    destruct (Forall2_In_l _ _ _ HF d Hin) as (t0 & _ & A & _). congruence.
  Qed.
  Lemma bound_all ds : (forall d, In d ds -> is_dir d = true -> exists fuel t, run true fuel (target d) = Ok t) ->
    exists fuel, forall d, In d ds -> is_dir d = true -> exists t, run true fuel (target d) = Ok t.
  Proof using HS HI HC.
    induction ds as [|d ds IH]; intros H; [exists O; intros d []|]. destruct IH as (f & Hf); [intros d' Hd'; apply H; right; exact Hd'|].
    destruct (is_dir d) eqn:ED.
    - destruct (H d (or_introl eq_refl) ED) as (f' & t & Ht). exists (Nat.max f f'). intros d' [<-|Hd'] HD'; [exists t; apply (run_mono_le _ _ _ f'); [lia|exact Ht]|].
      destruct (Hf d' Hd' HD') as (t' & Ht'). exists t'. apply (run_mono_le _ _ _ f); [lia|exact Ht'].
    - exists f. intros d' [<-|Hd'] HD'; [congruence|exact (Hf d' Hd' HD')].
  Qed.
  Lemma acc_terminates dir : Acc (subdir contents) dir -> exists fuel t, run true fuel dir = Ok t.
  Proof using HS HI HC.
    induction 1 as [dir _ IH]. destruct (step true dir) as (ds & HP & HO & HStep). destruct (bound_all ds) as (f & Hf).
    { intros d Hd HD. apply (IH (target d)). exists d. split; [exact (Permutation_in _ (Permutation_sym HP) Hd)|auto]. }
    exists (S f). destruct (HStep f (fun _ _ => True)) as [(E & _ & d & Hd & HD & Ht)|(subs & E & _)]; [intros d' Hd' HD'; destruct (Hf d' Hd' HD') as (t & Ht); right; eauto| |eauto].
    destruct (Hf d Hd HD) as (t & Ht'). congruence.
  Qed.
End Recursive.
(** C61.  ls --recursive terminates exactly if no chain of subdirectories goes on forever, and
    then it lists every directory of the tree below its parent. *)
Theorem C61_terminates_iff_partial st sort q owner inodes contents show dir : sorter sort -> inodes_are q owner inodes -> (forall d, dir_holds q owner d (contents d)) ->
  (exists fuel, listDirectory st sort fuel q owner dir true show <> Timeout) <-> Acc (subdir contents) dir.
Proof.
  intros HS HI HC. split.
  - intros (fuel & H). exact (terminates_acc st sort q owner inodes contents show HS HI HC fuel dir H).
  - intros H. destruct (acc_terminates st sort q owner inodes contents show HS HI HC dir H) as (fuel & t & E). exists fuel. unfold run in E. rewrite E. discriminate.
Qed.
Theorem C61_text_partial st sort q owner inodes contents show dir : sorter sort -> inodes_are q owner inodes -> (forall d, dir_holds q owner d (contents d)) ->
  Acc (subdir contents) dir ->
  exists fuel0 text, ls_text st inodes show contents true dir text /\ forall fuel, (fuel0 <= fuel)%nat -> listDirectory st sort fuel q owner dir true show = Ok text.
Proof.
  intros HS HI HC H. destruct (acc_terminates st sort q owner inodes contents show HS HI HC dir H) as (fuel & t & E). exists fuel, t. split.
  - destruct (run_text st sort q owner inodes contents show HS HI HC fuel true dir) as [HT|(t' & A & B)]; [congruence|]. rewrite E in A. injection A as <-. exact B.
  - intros f Hf. exact (run_mono_le st sort q owner inodes contents show HS HI HC true dir t fuel f Hf E).
Qed.
Print Assumptions C60_strict_weak_order. Print Assumptions C60_listing_partial. Print Assumptions C61_terminates_iff_partial. Print Assumptions C61_text_partial.
