(** C81: mounting an index from which items are missing, with a damaged device. *)
From Verif Require Import Go GoProofs Layout LayoutProofs SpecLayout StructProofs PropsLayout KeyFmt IoUtil Path Fs Recover SpecFs SpecContent SpecTree Conc PropsConc Rescue PropsRescueRead PropsRescueNode SpecMount PropsMount.
From Verif Require Import SpecDamage SpecLoss LossProofs SpecMountLoss.
From Coq Require Import List Permutation ZifyBool ZifyNat ZifyN.
Ltac Zify.zify_post_hook ::= Z.div_mod_to_equations.

Lemma pick_part kids' kids : part_of kids' kids -> NoDup (map fst kids) -> forall name t, pick kids' name = Some t -> pick kids name = Some t.
Proof.
  induction 1 as [|[n u] l' l H IH|[n u] l' l H IH]; intros HN name t HP; cbn [map fst] in HN; [exact HP| |]; inversion HN as [|? ? N1 N2]; subst; cbn [pick] in *.
  - destruct (list_eq_dec Byte.byte_eq_dec n name); [exact HP|exact (IH N2 _ _ HP)].
  - destruct (list_eq_dec Byte.byte_eq_dec n name) as [->|NE]; [|exact (IH N2 _ _ HP)]. exfalso. apply N1. specialize (IH N2 _ _ HP). clear -IH. induction l as [|[m v] l IHl]; [discriminate|]. cbn [pick map fst] in *. destruct (list_eq_dec Byte.byte_eq_dec m name); [left; assumption|right; auto].
Qed.
Lemma part_names (kids' kids : entries) : part_of kids' kids -> NoDup (map fst kids) -> NoDup (map fst kids').
Proof.
  intros H HN. assert (HM : part_of (map fst kids') (map fst kids)) by (induction H; cbn [map]; constructor; apply IHpart_of; inversion HN; assumption). exact (part_NoDup _ _ _ HM HN).
Qed.
Lemma mget_in q D o l kids name t : Forall2 (entry_is q D o) l kids -> pick kids name = Some t -> exists e, In e l /\ mget (kmap l kids) name = Some (snd e) /\ entry_is q D o e (name, t).
Proof.
  induction 1 as [|[k s] [n u] l kids HE _ IH]; intros HP; [discriminate|]. cbn [pick] in HP. unfold kmap. cbn [combine map fst snd]. rewrite mget_cons. destruct (list_eq_dec Byte.byte_eq_dec n name) as [->|HN].
  - injection HP as ->. exists (k, s). rewrite (proj2 (bytes_eqb_eq name name) eq_refl). split; [left; reflexivity|auto].
  - replace (bytes_eqb n name) with false; [destruct (IH HP) as (e & A & B); exists e; split; [right; exact A|exact B]|]. symmetry. destruct (bytes_eqb n name) eqn:EB; [apply bytes_eqb_eq in EB; congruence|reflexivity].
Qed.

Lemma found_nil q' p k isd : found q' p k isd -> p = [] -> k = main_top.
Proof. destruct 1; intros E; [reflexivity|]. destruct p; discriminate. Qed.

Section Left.
  (** [q]: complete, [q']: left, [qi]: as the program reads it; it answers like [q'] about the keys in [P] *)
  Variables (q q' qi : queries) (D D' : list byte) (bad : Z -> Prop) (dev : readerAt) (P : Z -> Z -> Prop).
  Hypothesis HM : misses q q'.
  Hypothesis HA : forall o i, P o i -> q_dirItems qi o i = q_dirItems q' o i /\ q_inode qi o i = q_inode q' o i /\ q_extents qi o i = q_extents q' o i /\ q_extent0 qi o i = q_extent0 q' o i.
  Hypothesis HPh : forall l p, q_physical q l = Ok p -> q_physical qi l = Ok p.
  Hypothesis HP0 : P FSTreeObjectID FirstFreeObjectID.
  Hypothesis HP1 : forall o d e loc, P o d -> In e (st_items (q_dirItems q' o d)) -> DirItem_Location (snd e) = Ok loc -> P (fst (child_key o loc)) (snd (child_key o loc)).
  Hypothesis HDv : damaged bad D' dev.
  Hypothesis HDl : zlen D' < 2^63.
  Hypothesis HDe : zlen D' = zlen D.

  Lemma inode_left o i x : P o i -> has_inode q o i x -> q_inode qi o i = Ok None \/ has_inode qi o i x.
  Proof.
    intros HP (ii & A & B). destruct (HA o i HP) as (_ & Q & _). destruct (ms_inode _ _ HM o i) as [E|E]; [left; congruence|right]. exists ii. split; [congruence|exact B].
  Qed.
  Lemma dir_state_left o i kids ks n : P o i -> served qi o i n -> dir_shows q D o i kids ks -> mountable q ks ->
    exists n' kids', let l := st_items (q_dirItems q' o i) in ensureDirItems qi n = Ok n' /\ served qi o i n' /\ n_owner n' = o /\ n_dir n' = kmap l kids' /\ Forall2 (entry_is q D o) l kids' /\ part_of kids' kids /\ NoDup (map fst kids).
  Proof.
    intros HP HS HD HMo. inversion HD as [? ? ? ks' HE HL E1 E2 E3 E4]; subst. assert (HMo' : mountable q ks') by (intros o1 d1 Hin; apply HMo; right; exact Hin).
    destruct (entries_are q D _ _ _ _ HL (proj2 (HMo o i (or_introl eq_refl))) HMo') as [HF HN]. destruct (ms_dirs _ _ HM o i) as [HPt HEn]. destruct (part_Forall2 _ _ _ _ _ HPt _ HF) as (kids' & HF' & HPk).
    pose proof (part_names _ _ HPk HN) as HN'. pose proof (fill_kmap q D o _ _ HF' [] HN') as HK. cbn [app] in HK. rewrite <- HEn in HK. destruct (HA o i HP) as (Q & _). rewrite <- Q in HK at 1 2. 
    pose proof (served_inv _ _ _ _ HS) as (H1 & H2 & H3 & H4). exists (set_dir n (kmap (st_items (q_dirItems q' o i)) kids')), kids'. cbv zeta.
    assert (EN : ensureDirItems qi n = Ok (set_dir n (kmap (st_items (q_dirItems q' o i)) kids'))).
    { unfold ensureDirItems. destruct (0 <? zlen (n_dir n)) eqn:EZ.
      - destruct H4 as [H4|H4]; [rewrite H4 in EZ; discriminate|]. rewrite HK in H4. assert (H4' : n_dir n = kmap (st_items (q_dirItems q' o i)) kids') by congruence. rewrite <- H4'. destruct n; reflexivity.
      - assert (HZ : n_dir n = []) by (destruct (n_dir n); [reflexivity|unfold zlen in EZ; cbn [length] in EZ; lia]). rewrite H1, H2, HZ. cbv zeta. rewrite HK. reflexivity. }
    split; [exact EN|]. split; [apply (served_opendir qi o i n (fun _ => []) _ []); [exact HS|unfold OpenDir; rewrite EN; reflexivity]|]. split; [exact H1|]. split; [reflexivity|]. auto.
  Qed.
  Lemma lookup_left o i kids ks n name : P o i -> served qi o i n -> dir_shows q D o i kids ks -> mountable q ks ->
    forall kids', part_of kids' kids -> Forall2 (entry_is q D o) (st_items (q_dirItems q' o i)) kids' ->
    match pick kids' name with
    | None => exists n', Lookup qi n name = Ok (n', None, None, ENOENT)
    | Some t => pick kids name = Some t /\ exists n' c a st e loc, Lookup qi n name = Ok (n', Some (c, is_tdir t), a, st) /\
        In e (st_items (q_dirItems q' o i)) /\ DirItem_Name (snd e) = Ok name /\ DirItem_Location (snd e) = Ok loc /\ DirItem_IsDir (snd e) = Ok (is_tdir t) /\
        let k := child_key o loc in P (fst k) (snd k) /\ served qi (fst k) (snd k) c /\ node_is q D (fst k) (snd k) t /\
        ((st = OK /\ a <> None /\ exists it, q_inode q' (fst k) (snd k) = Ok (Some it)) \/ (st = ENOATTR /\ a = None /\ q_inode q' (fst k) (snd k) = Ok None))
    end.
  Proof.
    intros HP HS HD HMo kids' HPk0 HF0. destruct (dir_state_left o i kids ks n HP HS HD HMo) as (n' & kids2 & E1 & _ & E2 & E3 & HF & HPk & HN).
    assert (EK : kmap (st_items (q_dirItems q' o i)) kids2 = kmap (st_items (q_dirItems q' o i)) kids').
    { clear -HF HF0. revert kids' HF0. induction HF as [|[k s] [m u] l kids2 HE HF IH]; intros kids' HF0; inversion HF0 as [|? [m' u'] ? kk HE' HF0']; subst; [reflexivity|]. unfold kmap. cbn [combine map fst snd]. fold (kmap l kids2). fold (kmap l kk). f_equal; [|exact (IH _ HF0')].
      destruct HE as [A _]. destruct HE' as [A' _]. cbn [fst snd] in *. congruence. }
    destruct (pick kids' name) as [t|] eqn:EP.
    - split; [exact (pick_part _ _ HPk0 HN _ _ EP)|]. destruct (mget_in q D o _ kids' name t HF0 EP) as (e & Hin & G1 & G2 & loc & G3 & _ & G4 & G5). cbn [fst snd] in *. pose proof (HP1 o i e loc HP Hin G3) as HPc.
      unfold Lookup. rewrite E1. cbn [rbind]. rewrite E3, EK, G1. unfold child_of, DirItem_IsSubvolume. rewrite G3. cbn [rbind]. rewrite E2.
      replace (if KType loc =? RootItemKey then (ObjectID loc, FirstFreeObjectID) else (o, ObjectID loc)) with (child_key o loc) by reflexivity. cbv zeta. destruct (child_key o loc) as [o' i'] eqn:EC. cbn [fst snd] in *. rewrite G4. cbn [rbind].
      destruct G5 as (x & HX & HR). destruct (HA o' i' HPc) as (_ & QI & _). destruct (inode_left o' i' x HPc HX) as [HI|HI].
      + destruct (proj2 (C55_enoattr qi o' i' (newRescueNode o' i') (served_new _ _ _)) HI) as (c & HG). rewrite HG. cbn [rbind]. exists n', c, None, ENOATTR, e, loc. split; [reflexivity|]. split; [exact Hin|]. split; [exact G2|]. split; [exact G3|]. split; [exact G4|]. rewrite EC. cbn [fst snd].
        split; [exact HPc|]. split; [exact (served_getattr qi o' i' _ _ _ _ (served_new _ _ _) HG)|]. split; [exists x; auto|]. right. split; [reflexivity|]. split; [reflexivity|]. congruence.
      + destruct (C55_attributes qi o' i' (newRescueNode o' i') x (served_new _ _ _) HI) as (c & HG). rewrite HG. cbn [rbind]. exists n', c, (Some (attr_of i' x)), OK, e, loc. split; [reflexivity|]. split; [exact Hin|]. split; [exact G2|]. split; [exact G3|]. split; [exact G4|]. rewrite EC. cbn [fst snd].
        split; [exact HPc|]. split; [exact (served_getattr qi o' i' _ _ _ _ (served_new _ _ _) HG)|]. split; [exists x; auto|]. left. split; [reflexivity|]. split; [discriminate|]. destruct HI as (ii & HI & _). exists ii. congruence.
    - pose proof (mget_kmap q D o _ kids' name HF0) as HG. rewrite EP in HG. unfold Lookup. rewrite E1. cbn [rbind]. rewrite E3, EK, HG. exists n'. reflexivity.
  Qed.

  (** untouched files *)
  Lemma untouched_file o i c xs x n : P o i -> served qi o i n -> file_shows q D o i c -> has_inode q o i x -> Forall2 (is_extent q) (st_items (q_extents q o i)) xs -> gapless xs (in_size x) ->
    good_file (untouched q q' D D' bad) o i -> exists f, Open qi n = Ok (Some f, OK) /\ forall buf, buf <> [] -> zlen c + zlen buf < 2^63 -> exists fuel, read_on fuel (Reader dev) f buf (zlen c) [] = Some c.
  Proof.
    intros HP HS HF HX HXs HG (_ & U2 & U3 & U4). destruct HF as (ys & it & F1 & F2 & F3 & F4 & F5 & F6 & F7). rewrite <- (extents_one q _ _ HXs _ F1) in *. clear ys F1. destruct (HA o i HP) as (_ & Q2 & Q3 & _).
    assert (HXi : Forall2 (is_extent qi) (st_items (q_extents qi o i)) xs).
    { rewrite Q3, U2. clear -HXs HPh. induction HXs as [|[k e] y l ys HE _ IH]; constructor; [|exact IH]. destruct HE as [A|[A|(t & m & nr & id & ph & eo & A1 & A2 & A3 & A4 & A5 & A6 & A7 & A8)]]; [left; exact A|right; left; exact A|right; right]. exists t, m, nr, id, ph, eo. apply HPh in A6. auto 10. }
    assert (SB : forall off m src p, In (Disk off m src) xs -> src <= p < src + m -> same_byte D D' bad p) by (intros off m src p; exact (U4 xs off m src p HXs)).
    assert (HFi : file_shows qi D' o i c).
    { exists xs, it. split; [exact HXi|]. split; [rewrite Forall_forall in F2 |- *; intros y Hy; destruct (F2 y Hy) as [A B]; split; [exact A|destruct y; [exact B|exact B|lia]]|]. split; [rewrite Q3; apply (ms_exts _ _ HM)|]. split; [congruence|]. split; [exact F5|]. split; [exact F6|].
      intros j Hj. rewrite (F7 j Hj). unfold file_byte. destruct (List.find (fun y => covers y j) (rev xs)) as [y|] eqn:EF; [|reflexivity]. apply find_some in EF as [E1 E2]. apply in_rev in E1. unfold covers in E2. destruct y as [| |off m src]; [reflexivity|reflexivity|]. cbn [ext_byte ext_off ext_len] in *. symmetry. apply (SB off m src); [exact E1|lia]. }
    assert (HXi2 : has_inode qi o i x) by (destruct HX as (ii & A & B); exists ii; split; [congruence|exact B]).
    assert (HRd : Forall (ext_readable dev) xs).
    { apply Forall_forall. intros y Hy. destruct y as [| |off m src]; cbn [ext_readable]; [exact Logic.I|exact Logic.I|]. intros k b Hb Hk He. rewrite Forall_forall in F2. destruct (F2 _ Hy) as [_ HU]. cbn [ext_len] in *.
      assert (H0 : 0 <= src). { assert (HSr : Forall srcs_ok xs) by (clear - HXs; induction HXs; constructor; [eapply is_extent_src; eassumption|assumption]). rewrite Forall_forall in HSr. exact (proj1 (HSr _ Hy)). }
      apply (proj2 HDv); [lia|lia|lia|]. intros p Hp. apply (SB off m src p Hy). lia. }
    exact (proj2 (file_view qi D' dev o i n c xs x HS HFi HXi2 HXi HG (proj1 HDv) HRd HDl)).
  Qed.
  Lemma open_left o i xs n : P o i -> served qi o i n -> Forall2 (is_extent q) (st_items (q_extents q o i)) xs -> gapless xs 0 \/ (exists s, gapless xs s) ->
    exists f st, Open qi n = Ok (f, st) /\ (st = OK <-> st_items (q_extents q' o i) <> []).
  Proof.
    intros HP HS HXs HG. assert (HG' : exists s, gapless xs s) by (destruct HG; eauto). clear HG. destruct HG' as [s HG]. destruct (HA o i HP) as (_ & _ & Q3 & _). destruct (ms_exts _ _ HM o i) as [HPt HEn]. destruct (part_Forall2 _ _ _ _ _ HPt _ HXs) as (ys & HY & HPy).
    pose proof (served_inv _ _ _ _ HS) as (H1 & H2 & _).
    assert (HYi : Forall2 (is_extent qi) (st_items (q_extents qi o i)) ys).
    { rewrite Q3. clear -HY HPh. induction HY as [|[k e] y l ys HE _ IH]; constructor; [|exact IH]. destruct HE as [A|[A|(t & m & nr & id & ph & eo & A1 & A2 & A3 & A4 & A5 & A6 & A7 & A8)]]; [left; exact A|right; left; exact A|right; right]. exists t, m, nr, id, ph, eo. apply HPh in A6. auto 10. }
    destruct ys as [|y ys].
    - assert (EL : st_items (q_extents q' o i) = []) by (inversion HY; reflexivity). rewrite EL. exists None, ENOENT. split; [|split; [discriminate|congruence]]. unfold Open. rewrite H1, H2, Q3, EL, HEn. reflexivity.
    - assert (HNe : st_items (q_extents q' o i) <> []) by (intros E; rewrite E in HY; inversion HY). destruct HG as [(d & -> & _)|(_ & HI & _)].
      + assert (y = Inline 0 d) by (apply part_In with (x := y) in HPy; [destruct HPy as [<-|[]]; reflexivity|left; reflexivity]). subst y. assert (HYe : exists k e l, st_items (q_extents qi o i) = (k, e) :: l /\ is_extent qi (k, e) (Inline 0 d)) by (inversion HYi as [|[k e] ? l ? HE _ EL]; exists k, e, l; auto). destruct HYe as (k & e & l & EL & HE). destruct HE as [(d' & T1 & T2 & T3)|[(t & m & _ & _ & _ & _ & T)|(t & m & nr & id & ph & eo & _ & _ & _ & _ & _ & _ & _ & T)]]; [|discriminate|discriminate].
        exists (Some (DataFile d')), OK. split; [|tauto]. unfold Open. rewrite H1, H2, EL. unfold FileExtentItem_IsInline. rewrite T1. cbn [rbind]. change (0 =? FileExtentInline) with true. cbv iota. rewrite T2. reflexivity.
      + assert (HIy : Forall (fun x => ~ is_inline x) (y :: ys)) by exact (part_Forall _ _ _ _ HPy HI). rewrite <- H1, <- H2 in HYi. assert (HE' : st_end (q_extents qi (n_owner n) (n_inode n)) = Ok tt) by (rewrite H1, H2, Q3; exact HEn).
        destruct (Open_extents qi n _ HYi HE' ltac:(discriminate) HIy) as (m & HO & _). exists (Some (ExtentFile m)), OK. split; [exact HO|tauto].
  Qed.
  Lemma view_left o i n t : P o i -> served qi o i n -> node_is q D o i t -> shows_left q q' qi D D' bad dev t n.
  Proof.
    intros HP HS (x & HX & HT). pose proof (served_inv _ _ _ _ HS) as (H1 & H2 & _). destruct (HA o i HP) as (_ & Q2 & Q3 & Q4). unfold shows_left. rewrite H1, H2. cbv zeta.
    assert (HAt : forall PP : Prop, PP -> (q_inode q' o i = Ok None /\ exists n', GetAttr qi n = Ok (n', None, ENOATTR)) \/ (exists x n', has_inode q o i x /\ q_inode q' o i = q_inode q o i /\ GetAttr qi n = Ok (n', Some (attr_of i x), OK) /\ match t with TFile c => in_size x = zlen c | _ => True end)).
    { intros _ _. destruct (inode_left o i x HP HX) as [HI|HI].
      - left. split; [congruence|]. exact (proj2 (C55_enoattr qi o i n HS) HI).
      - right. destruct (C55_attributes qi o i n x HS HI) as (n' & HG). exists x, n'. split; [exact HX|]. split; [|split; [exact HG|]].
        + destruct HI as (ii & A & _). destruct (ms_inode _ _ HM o i) as [E|E]; [congruence|exact E].
        + destruct t as [c| |]; [|exact Logic.I|exact Logic.I]. destruct HT as ((ys & it & _ & _ & _ & F4 & F5 & _) & _). destruct HX as (jj & B1 & B2 & B3). assert (jj = it) by congruence. subst jj. destruct (C06_inode_item x it B2 B3) as (_ & _ & E1 & _). congruence. }
    split; [exact (HAt True Logic.I)|]. clear HAt. destruct t as [c|l|kids].
    - destruct HT as (HF & xs & HXs & HG). split; [exact (open_left o i xs n HP HS HXs (or_intror (ex_intro _ _ HG)))|]. intros HU. exact (untouched_file o i c xs x n HP HS HF HX HXs HG HU).
    - destruct HT as ((e & L1 & L2 & L3) & e' & L4 & L5). assert (e' = e) by congruence. subst e'. unfold Readlink. rewrite H1, H2, Q4. destruct (ms_ext0 _ _ HM o i) as [E|E]; [left; rewrite E; split; reflexivity|right]. rewrite E, L1. cbn [rbind]. unfold FileExtentItem_IsInline. rewrite L5. cbn [rbind]. change (0 =? FileExtentInline) with true. cbv iota.
      destruct L2 as [[_ L2]|(ty & _ & _ & _ & _ & _ & L2 & L6 & _)]; [rewrite L2; reflexivity|congruence].
    - destruct HT as (ks & HD & HMo). destruct (dir_state_left o i kids ks n HP HS HD HMo) as (n1 & kids' & E1 & _ & E2 & E3 & HF & HPk & HN). exists kids'. split; [|split].
      + split; [exact HPk|]. clear -HF. induction HF as [|e k l kk HE _ IH]; constructor; [exact (proj1 HE)|exact IH].
      + intros ord HO. destruct (kmap_entries q D o _ kids' HF) as [K1 K2]. unfold OpenDir. rewrite E1. cbn [rbind]. rewrite E3.
        rewrite entries_map by (intros y Hy; apply K1; exact (Permutation_in _ (HO _) Hy)). cbn [rbind]. eexists. eexists. split; [reflexivity|]. rewrite <- K2. apply Permutation_map, HO.
      + intros name. pose proof (lookup_left o i kids ks n name HP HS HD HMo kids' HPk HF) as HL. destruct (pick kids' name) as [t|]; [|exact HL].
        destruct HL as (_ & n' & c & a & st & e & loc & L1 & _ & _ & _ & _ & _ & L2 & _ & L3). exists n', c, a, st. split; [exact L1|]. pose proof (served_inv _ _ _ _ L2) as (C1 & C2 & _). rewrite C1, C2. destruct L3 as [(A & B & it & C)|L3]; [left; split; [exact A|split; [exact B|congruence]]|right; exact L3].
  Qed.

  (** ** sessions *)
  Definition entry_left (top : tree) (x : cpath * bool * node_state) : Prop :=
    let '(p, isd, n) := x in exists t o i, tree_sub top p = Some t /\ isd = is_tdir t /\ P o i /\ served qi o i n /\ node_is q D o i t /\ found q' p (o, i) isd.
  Lemma lookup_entry top p n name n' c isd a : entry_left top (p, true, n) -> Lookup qi n name = Ok (n', Some (c, isd), a, OK) -> entry_left top (p ++ [name], isd, c).
  Proof.
    intros (t & o & i & A1 & A2 & A3 & A4 & A5 & A6) HL. destruct t as [| |kk]; try discriminate. destruct A5 as (x & HX & ks & HD & HMo). destruct (dir_state_left o i kk ks n A3 A4 HD HMo) as (n1 & kids' & E1 & _ & E2 & E3 & HF & HPk & HN).
    pose proof (lookup_left o i kk ks n name A3 A4 HD HMo kids' HPk HF) as HK. destruct (pick kids' name) as [t|]; [|destruct HK as (n2 & HK); rewrite HL in HK; discriminate].
    destruct HK as (K0 & n2 & c2 & a2 & st & e & loc & K1 & K2 & K3 & K4 & K4' & K5 & K6 & K7 & K8). rewrite HL in K1. assert (E : c2 = c /\ isd = is_tdir t /\ st = OK) by (split; [congruence|split; congruence]). destruct E as (-> & -> & ->).
    destruct K8 as [(_ & _ & it & K8)|(K8 & _)]; [|discriminate]. exists t, (fst (child_key o loc)), (snd (child_key o loc)). split; [exact (sub_snoc _ _ _ _ _ A1 K0)|]. split; [reflexivity|]. split; [exact K5|]. split; [exact K6|]. split; [exact K7|].
    rewrite <- surjective_pairing. destruct e as [k di]. exact (found_entry q' p o i k di name loc it _ A6 K2 K3 K4 K4' K8).
  Qed.
  Lemma session_left kids : node_is q D FSTreeObjectID FirstFreeObjectID (TDir kids) -> forall T, session qi T -> Forall (entry_left (TDir kids)) T.
  Proof.
    intros HR T H. induction H as [|T1 p n T2 name n' c isd a _ IH HL|T1 p n T2 name n' c a st _ IH HL HS|T1 p n T2 ord n' es _ IH HL|T1 p isd n T2 n' a st _ IH HL|T1 x T2 _ IH].
    - constructor; [|constructor]. exists (TDir kids), FSTreeObjectID, FirstFreeObjectID. split; [reflexivity|]. split; [reflexivity|]. split; [exact HP0|]. split; [apply served_new|]. split; [exact HR|apply found_top].
    - apply Forall_app in IH as [I1 I2]. inversion I2 as [|? ? I3 I4]; subst. apply Forall_app. split; [exact I1|]. constructor; [|apply Forall_app; split; [exact I4|constructor; [exact (lookup_entry _ _ _ _ _ _ _ _ I3 HL)|constructor]]].
      destruct I3 as (t & o & i & A1 & A2 & A3 & A4 & A5). exists t, o, i. split; [exact A1|]. split; [exact A2|]. split; [exact A3|]. split; [exact (served_lookup qi o i n name _ _ _ _ A4 HL)|exact A5].
    - apply Forall_app in IH as [I1 I2]. inversion I2 as [|? ? I3 I4]; subst. destruct I3 as (t & o & i & A1 & A2 & A3 & A4 & A5). apply Forall_app. split; [exact I1|]. constructor; [|exact I4]. exists t, o, i. split; [exact A1|]. split; [exact A2|]. split; [exact A3|]. split; [|exact A5]. exact (served_lookup qi o i n name _ _ _ _ A4 HL).
    - apply Forall_app in IH as [I1 I2]. inversion I2 as [|? ? I3 I4]; subst. destruct I3 as (t & o & i & A1 & A2 & A3 & A4 & A5). apply Forall_app. split; [exact I1|]. constructor; [|exact I4]. exists t, o, i. split; [exact A1|]. split; [exact A2|]. split; [exact A3|]. split; [|exact A5]. exact (served_opendir qi o i n ord _ _ A4 HL).
    - apply Forall_app in IH as [I1 I2]. inversion I2 as [|? ? I3 I4]; subst. destruct I3 as (t & o & i & A1 & A2 & A3 & A4 & A5). apply Forall_app. split; [exact I1|]. constructor; [|exact I4]. exists t, o, i. split; [exact A1|]. split; [exact A2|]. split; [exact A3|]. split; [|exact A5]. exact (served_getattr qi o i n _ _ _ A4 HL).
    - apply Forall_app in IH as [I1 I2]. inversion I2; subst. apply Forall_app. split; assumption.
  Qed.
  (** names in a directory of the complete index are distinct, so a path leads to one inode *)
  Lemma pick_name o l kids e name : Forall2 (entry_is q D o) l kids -> NoDup (map fst kids) -> In e l -> DirItem_Name (snd e) = Ok name -> exists t, pick kids name = Some t /\ In (name, t) kids /\ mget (kmap l kids) name = Some (snd e).
  Proof.
    intros HF HN He Hn. induction HF as [|[k s] [m u] l kids HE _ IH]; [destruct He|]. cbn [map fst] in HN. inversion HN as [|? ? N1 N2]; subst. cbn [pick]. unfold kmap. cbn [combine map fst snd]. rewrite mget_cons. destruct He as [<-|He].
    - destruct HE as [HE _]. cbn [fst snd] in *. assert (m = name) by congruence. subst m. exists u. destruct (list_eq_dec Byte.byte_eq_dec name name) as [_|C]; [|congruence]. rewrite (proj2 (bytes_eqb_eq name name) eq_refl). split; [reflexivity|]. split; [left; reflexivity|reflexivity].
    - destruct (IH N2 He) as (t & I1 & I2 & I3). exists t. assert (NE : m <> name) by (intros ->; apply N1; apply in_map_iff; exists (name, t); auto). destruct (list_eq_dec Byte.byte_eq_dec m name) as [C|_]; [congruence|].
      replace (bytes_eqb m name) with false by (symmetry; destruct (bytes_eqb m name) eqn:EB; [apply bytes_eqb_eq in EB; congruence|reflexivity]). split; [exact I1|]. split; [right; exact I2|exact I3].
  Qed.
  Lemma found_known kids : node_is q D FSTreeObjectID FirstFreeObjectID (TDir kids) -> forall p k isd, found q' p k isd ->
    (exists t, tree_sub (TDir kids) p = Some t /\ isd = is_tdir t /\ node_is q D (fst k) (snd k) t /\ P (fst k) (snd k)) /\
    forall T, session qi T -> (exists n, In ([], true, n) T) -> exists T' n, session qi T' /\ incl (map fst T) (map fst T') /\ In (p, isd, n) T' /\ served qi (fst k) (snd k) n.
  Proof.
    intros HR p k isd HFd. induction HFd as [|p o d k di name loc it isd HFd [IH1 IH2] HI Hn Hloc Hd Hin].
    - split; [exists (TDir kids); auto|]. intros T HT [n Hn]. exists T, n. split; [exact HT|]. split; [apply incl_refl|]. split; [exact Hn|]. pose proof (session_left kids HR T HT) as HF. rewrite Forall_forall in HF. destruct (HF _ Hn) as (t & o & i & _ & _ & _ & A4 & _ & A6).
      pose proof (found_nil _ _ _ _ A6 eq_refl) as E. rewrite <- E. exact A4.
    - destruct IH1 as (t & B1 & B2 & B3 & B4). cbn [fst snd] in *. destruct t as [| |kk]; try discriminate. destruct B3 as (x & HX & ks & HD & HMo).
      assert (HK : exists t, pick kk name = Some t /\ isd = is_tdir t /\ P (fst (child_key o loc)) (snd (child_key o loc)) /\ node_is q D (fst (child_key o loc)) (snd (child_key o loc)) t /\
        forall n, served qi o d n -> exists n' c a, Lookup qi n name = Ok (n', Some (c, isd), a, OK) /\ served qi (fst (child_key o loc)) (snd (child_key o loc)) c).
      { pose proof (HP1 o d (k, di) loc B4 HI Hloc) as HPc. destruct (dir_state_left o d kk ks (newRescueNode o d) B4 (served_new _ _ _) HD HMo) as (_ & kids' & _ & _ & _ & _ & HF & HPk & HN).
        destruct (pick_name o _ kids' (k, di) name HF (part_names _ _ HPk HN) HI Hn) as (t & P1 & _ & P3). destruct (mget_in q D o _ kids' name t HF P1) as (e & _ & G1 & G2). assert (snd e = di) by (cbn [snd] in P3; congruence).
        destruct G2 as (G2 & loc' & G3 & _ & G4 & G5). cbn [fst snd] in *. rewrite H in *. assert (loc' = loc) by congruence. subst loc'. assert (isd = is_tdir t) by congruence.
        exists t. split; [exact (pick_part _ _ HPk HN _ _ P1)|]. split; [assumption|]. split; [exact HPc|]. split; [exact G5|]. intros n HSn. pose proof (lookup_left o d kk ks n name B4 HSn HD HMo kids' HPk HF) as HL. rewrite P1 in HL.
        destruct HL as (_ & n' & c & a & st & e2 & loc2 & L1 & L2 & L3 & L4 & L4' & L5 & L6 & L7 & L8). destruct (pick_name o _ kids' e2 name HF (part_names _ _ HPk HN) L2 L3) as (_ & _ & _ & P4).
        assert (snd e2 = di) by (cbn [snd] in P3; congruence). rewrite H1 in *. assert (loc2 = loc) by congruence. subst loc2. destruct L8 as [(-> & _)|(_ & _ & L8)]; [|congruence]. exists n', c, a. rewrite H0. split; [exact L1|exact L6]. }
      destruct HK as (t & K1 & K2 & K3 & K4 & K5). split; [exists t; split; [exact (sub_snoc _ _ _ _ _ B1 K1)|auto]|]. intros T HT HRt. destruct (IH2 T HT HRt) as (T' & n & S1 & S2 & S3 & S4). destruct (K5 n S4) as (n' & c & a & L1 & L2).
      apply in_split in S3 as (Ta & Tb & ->). exists (Ta ++ (p, true, n') :: Tb ++ [(p ++ [name], isd, c)]), c. split; [exact (ses_found qi Ta p n Tb name n' c isd a S1 L1)|]. split; [|split; [|exact L2]].
      + intros y Hy. specialize (S2 y Hy). rewrite !map_app in *. cbn [map fst] in *. rewrite map_app. apply in_app_or in S2 as [S2|[S2|S2]]; apply in_or_app; [left; exact S2|right; left; exact S2|right; right; apply in_or_app; left; exact S2].
      + apply in_or_app. right. right. apply in_or_app. right. left. reflexivity.
  Qed.
End Left.

(** C81.  A volume whose complete index [q] and device [D] describe the tree [kids]; [q']: the index with items missing; [D']:
    the device with other content in places and with [bad] positions.  Whatever was asked before: every node the kernel
    knows stands for a part of the original tree, found through entries that are left, and answers accordingly, as far as items
    are left, exactly where nothing is missing; and everything that can be found through entries that are left can be looked up. *)
Theorem C81_mounted_rest : forall q q' D D' bad dev kids ks,
  dir_shows q D FSTreeObjectID FirstFreeObjectID kids ks -> mountable q ks -> misses q q' -> damaged bad D' dev -> zlen D' = zlen D -> zlen D' < 2^63 ->
  (forall T p isd n, session q' T -> In (p, isd, n) T ->
     exists t, tree_sub (TDir kids) p = Some t /\ isd = is_tdir t /\ found q' p (n_owner n, n_inode n) isd /\ shows_left q q' q' D D' bad dev t n) /\
  (forall T p k isd, session q' T -> (exists n, In ([], true, n) T) -> found q' p k isd ->
     exists T' n, session q' T' /\ incl (map fst T) (map fst T') /\ In (p, isd, n) T' /\ (n_owner n, n_inode n) = k).
Proof.
  intros q q' D D' bad dev kids ks HD HMo HM HDv HDe HDl.
  assert (HR : node_is q D FSTreeObjectID FirstFreeObjectID (TDir kids)). { inversion HD as [? ? ? ks' HE HL E1 E2 E3 E4]; subst. destruct (HMo FSTreeObjectID FirstFreeObjectID (or_introl eq_refl)) as [[x HX] _]. exists x. split; [exact HX|]. eexists. split; [exact HD|exact HMo]. }
  assert (HA : forall o i, (fun _ _ : Z => True) o i -> q_dirItems q' o i = q_dirItems q' o i /\ q_inode q' o i = q_inode q' o i /\ q_extents q' o i = q_extents q' o i /\ q_extent0 q' o i = q_extent0 q' o i) by auto.
  split.
  - intros T p isd n HS HI. pose proof (session_left q q' q' D (fun _ _ => True) HM HA (ms_phys _ _ HM) Logic.I (fun _ _ _ _ _ _ _ => Logic.I) kids HR T HS) as HF. rewrite Forall_forall in HF. destruct (HF _ HI) as (t & o & i & A1 & A2 & A3 & A4 & A5 & A6).
    pose proof (served_inv _ _ _ _ A4) as (H1 & H2 & _). rewrite H1, H2. exists t. split; [exact A1|]. split; [exact A2|]. split; [exact A6|].
    exact (view_left q q' q' D D' bad dev (fun _ _ => True) HM HA (ms_phys _ _ HM) (fun _ _ _ _ _ _ _ => Logic.I) HDv HDl HDe o i n t Logic.I A4 A5).
  - intros T p k isd HS HI HFd. destruct (found_known q q' q' D (fun _ _ => True) HM HA (ms_phys _ _ HM) Logic.I (fun _ _ _ _ _ _ _ => Logic.I) kids HR p k isd HFd) as [_ H]. destruct (H T HS HI) as (T' & n & S1 & S2 & S3 & S4).
    exists T', n. pose proof (served_inv _ _ _ _ S4) as (H1 & H2 & _). rewrite H1, H2, <- surjective_pairing. auto.
Qed.
Print Assumptions C81_mounted_rest.
