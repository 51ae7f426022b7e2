(** Property theorems C29 and C58: requests served concurrently. *)
From Verif Require Import Go GoProofs Layout KeyFmt Bolt Store Conc.
From Coq Require Import ZifyBool ZifyNat ZifyN Sorted.
Ltac Zify.zify_post_hook ::= Z.div_mod_to_equations.

(** ** interleavings in which the shared state does not change *)
Fixpoint iter {A} (n : nat) (f : A -> A) (x : A) : A := match n with O => x | S n => iter n f (f x) end.
Lemma iter_S {A} n (f : A -> A) x : iter (S n) f x = f (iter n f x).
Proof. revert x. induction n as [|n IH]; intros x; [reflexivity|]. cbn [iter] in *. rewrite <- IH. reflexivity. Qed.
Lemma iter_add {A} n m (f : A -> A) x : iter (n + m) f x = iter m f (iter n f x).
Proof. revert x. induction n as [|n IH]; intros x; [reflexivity|]. cbn [iter plus]. apply IH. Qed.
Section Static.
  Context {Sh Arg Pc : Type}.
  Variable tstep : Arg -> Sh -> Pc -> Sh * Pc.
  Lemma nth_upd (ts : list (Arg * Pc)) i j p : nth_error (upd ts i p) j =
    if Nat.eqb i j then option_map (fun t => (fst t, p)) (nth_error ts j) else nth_error ts j.
  Proof.
    revert i j. induction ts as [|[a q] ts IH]; intros [|i] [|j]; cbn [upd nth_error Nat.eqb option_map]; try reflexivity.
    - destruct (Nat.eqb i j); reflexivity.
    - apply IH.
  Qed.
  Lemma upd_length (ts : list (Arg * Pc)) i p : length (upd ts i p) = length ts.
  Proof. revert i. induction ts as [|[a q] ts IH]; intros [|i]; cbn [upd length]; try reflexivity. rewrite IH. reflexivity. Qed.
  Variables (sh : Sh) (P : Arg -> Pc -> Prop).
  Hypothesis Hstep : forall a p, P a p -> fst (tstep a sh p) = sh /\ P a (snd (tstep a sh p)).
  Lemma run_static sched : forall ts, (forall i a p, nth_error ts i = Some (a, p) -> P a p) ->
    fst (run tstep (sh, ts) sched) = sh /\
    forall i, nth_error (snd (run tstep (sh, ts) sched)) i =
      option_map (fun t => (fst t, iter (count_occ Nat.eq_dec sched i) (fun p => snd (tstep (fst t) sh p)) (snd t))) (nth_error ts i).
  Proof.
    induction sched as [|k sched IH]; intros ts HP.
    - split; [reflexivity|]. intros i. cbn [run fold_left snd count_occ iter]. destruct (nth_error ts i) as [[a p]|]; reflexivity.
    - unfold run. cbn [fold_left]. fold (run tstep (step1 tstep (sh, ts) k) sched). unfold step1. cbn [fst snd].
      destruct (nth_error ts k) as [[a p]|] eqn:E.
      + destruct (Hstep a p (HP k a p E)) as [H1 H2]. destruct (tstep a sh p) as [sh' p'] eqn:ES. cbn [fst snd] in H1, H2. subst sh'.
        destruct (IH (upd ts k p')) as [I1 I2].
        { intros i a' q Hq. rewrite nth_upd in Hq. destruct (Nat.eqb k i) eqn:Eb; [|eauto].
          apply Nat.eqb_eq in Eb. subst i. rewrite E in Hq. cbn in Hq. injection Hq as <- <-. exact H2. }
        split; [exact I1|]. intros i. rewrite I2, nth_upd. cbn [count_occ]. destruct (Nat.eq_dec k i) as [->|Hne].
        * rewrite Nat.eqb_refl, E. cbn [option_map fst snd iter]. rewrite ES. reflexivity.
        * apply Nat.eqb_neq in Hne. rewrite Hne. reflexivity.
      + destruct (IH ts HP) as [I1 I2]. split; [exact I1|]. intros i. rewrite I2. cbn [count_occ]. destruct (Nat.eq_dec k i) as [->|Hne]; [|reflexivity].
        rewrite E. reflexivity.
  Qed.
End Static.

(** ** Physical with a filled cache *)
(** where a request must end, given what a call without concurrency returns *)
Definition ends (r : Res (Z * Z)) (p : ppc) : Prop := match r with Ok v => p = PDone v | _ => p = PPanic end.
Definition running (p : ppc) : Prop := match p with PDone _ | PPanic => False | _ => True end.
Definition warm (p : ppc) : Prop := match p with PMake | PLoad _ | PStore _ _ _ => False | _ => True end.
Lemma warm_step C m l p : warm p -> fst (phys_step C l (Some m) p) = Some m /\ warm (snd (phys_step C l (Some m) p)).
Proof.
  destruct p; cbn [warm phys_step fst snd]; try contradiction; intros _; (split; [reflexivity|]); try exact I.
  - destruct (i <? j); [|exact I]. destruct (sm_index _ _); try exact I. destruct (_ <=? _); exact I.
  - destruct (_ =? _); [exact I|]. destruct (0 <? i); [|exact I]. destruct (sm_index _ _); try exact I. destruct (_ =? _); exact I.
  - destruct (sm_index _ _); exact I.
Qed.
Definition tstep (C m : list stripeMapEntry) (l : Z) (p : ppc) : ppc := snd (phys_step C l (Some m) p).
Lemma done_stays C m l p n : ~ running p -> iter n (tstep C m l) p = p.
Proof. intros H. induction n as [|n IH]; [reflexivity|]. rewrite iter_S, IH. destruct p; cbn in *; tauto. Qed.
(** the search loop, step by step *)
Lemma sm_index_cases m i : (exists e, sm_index m i = Ok e) \/ sm_index m i = Panic.
Proof. unfold sm_index. destruct (_ && _); [|auto]. destruct (nth_error _ _); eauto. Qed.
Definition goes C m l (p q : ppc) (bound : nat) : Prop := exists k, (k <= bound)%nat /\ iter k (tstep C m l) p = q /\ forall k', (k' < k)%nat -> running (iter k' (tstep C m l) p).
Lemma goes_step C m l p q n : running p -> goes C m l (tstep C m l p) q n -> goes C m l p q (S n).
Proof.
  intros Hr (k & Hk & E & H). exists (S k). split; [lia|]. split; [exact E|]. intros [|k'] Hk'; [exact Hr|]. cbn [iter]. apply H. lia.
Qed.
Lemma goes_refl C m l p n : goes C m l p p n.
Proof. exists O. split; [lia|]. split; [reflexivity|]. intros k' Hk'. lia. Qed.
Lemma goes_trans C m l p q r a b : goes C m l p q a -> goes C m l q r b -> goes C m l p r (a + b).
Proof.
  intros (k1 & H1 & E1 & R1) (k2 & H2 & E2 & R2). exists (k1 + k2)%nat. split; [lia|]. rewrite iter_add, E1. split; [exact E2|].
  intros k' Hk'. destruct (Nat.lt_ge_cases k' k1) as [Hl|Hg]; [auto|]. replace k' with (k1 + (k' - k1))%nat by lia. rewrite iter_add, E1. apply R2. lia.
Qed.
Lemma probe_goes C m l n : forall fuel i j, 
  let f := fun i => e <- sm_index m i ;; Ok (l <=? sm_logical e) in
  match search_loop fuel i j f with
  | Ok r => goes C m l (PProbe n i j) (PAdj n r) fuel
  | Panic => goes C m l (PProbe n i j) PPanic fuel
  | Timeout => True
  end.
Proof.
  intros fuel. induction fuel as [|fuel IH]; intros i j f; [exact I|]. cbn [search_loop].
  assert (ES : tstep C m l (PProbe n i j) = if i <? j then
             match sm_index m ((i + j) / 2) with
             | Ok e => if l <=? sm_logical e then PProbe n i ((i + j) / 2) else PProbe n ((i + j) / 2 + 1) j
             | _ => PPanic end else PAdj n i) by reflexivity.
  destruct (i <? j).
  - cbv zeta. destruct (sm_index_cases m ((i + j) / 2)) as [[e E]|E].
    + assert (Ef : f ((i + j) / 2) = Ok (l <=? sm_logical e)) by (unfold f; rewrite E; reflexivity). rewrite Ef. cbn [rbind].
      rewrite E in ES. destruct (l <=? sm_logical e).
      * specialize (IH i ((i + j) / 2)). cbv zeta in IH. fold f in IH.
        destruct (search_loop fuel i ((i + j) / 2) f); try exact I; (apply goes_step; [exact I|]; rewrite ES; exact IH).
      * specialize (IH ((i + j) / 2 + 1) j). cbv zeta in IH. fold f in IH.
        destruct (search_loop fuel ((i + j) / 2 + 1) j f); try exact I; (apply goes_step; [exact I|]; rewrite ES; exact IH).
    + assert (Ef : f ((i + j) / 2) = Panic) by (unfold f; rewrite E; reflexivity). rewrite Ef. cbn [rbind].
      rewrite E in ES. apply goes_step; [exact I|]. rewrite ES. apply goes_refl.
  - apply goes_step; [exact I|]. rewrite ES. apply goes_refl.
Qed.
Lemma search_total f : (forall i, f i = Panic \/ exists p, f i = Ok p) -> forall fuel i j, (Z.to_nat (j - i) < fuel)%nat ->
  search_loop fuel i j f <> Timeout.
Proof.
  intros Hf. induction fuel as [|fuel IH]; intros i j H; [lia|]. cbn [search_loop]. destruct (i <? j) eqn:E; [|discriminate].
  cbv zeta. destruct (Hf ((i + j) / 2)) as [->|[p ->]]; cbn [rbind]; [discriminate|]. destruct p; apply IH; lia.
Qed.
Lemma call_goes C m l : exists p, ends (Physical_in m l) p /\ ~ running p /\ goes C m l PLen p (length m + 4).
Proof.
  unfold Physical_in. cbv zeta. set (f := fun i => e <- sm_index m i ;; Ok (l <=? sm_logical e)).
  assert (HT : sort_Search (zlen m) f <> Timeout).
  { unfold sort_Search. apply search_total; [|lia]. intros i. unfold f. destruct (sm_index_cases m i) as [[e ->]| ->]; cbn [rbind]; eauto. }
  pose proof (probe_goes C m l (zlen m) (S (Z.to_nat (zlen m))) 0 (zlen m)) as HP. cbv zeta in HP. fold f in HP. fold (sort_Search (zlen m) f) in HP.
  assert (EL : S (Z.to_nat (zlen m)) = S (length m)) by (unfold zlen; lia). rewrite EL in HP.
  assert (H0 : forall q k, goes C m l (PProbe (zlen m) 0 (zlen m)) q k -> goes C m l PLen q (S k)) by (intros q k H; apply goes_step; [exact I|exact H]).
  destruct (sort_Search (zlen m) f) as [i| |] eqn:ES; cbn [rbind]; [| |congruence].
  2:{ exists PPanic. split; [reflexivity|]. split; [intros []|]. destruct (H0 _ _ HP) as (k & Hk & R). exists k. split; [lia|exact R]. }
  assert (EA : tstep C m l (PAdj (zlen m) i) = if i =? zlen m then PRead (i - 1)
           else if 0 <? i then match sm_index m i with Ok e => if sm_logical e =? l then PRead i else PRead (i - 1) | _ => PPanic end else PRead i) by reflexivity.
  assert (HR : forall k, tstep C m l (PRead k) = match sm_index m k with
           | Ok s => PDone (sm_devID s, u64 (u64 (sm_offset s + l) - sm_logical s)) | _ => PPanic end) by reflexivity.
  assert (HF : forall k, exists p, ends (s <- sm_index m k ;; Ok (sm_devID s, u64 (u64 (sm_offset s + l) - sm_logical s))) p /\ ~ running p /\ goes C m l (PRead k) p 1).
  { intros k. destruct (sm_index_cases m k) as [[e E]|E]; rewrite E; cbn [rbind ends].
    - eexists. split; [reflexivity|]. split; [intros []|]. apply goes_step; [exact I|]. rewrite HR, E. apply goes_refl.
    - eexists. split; [reflexivity|]. split; [intros []|]. apply goes_step; [exact I|]. rewrite HR, E. apply goes_refl. }
  assert (HG : forall q r, tstep C m l (PAdj (zlen m) i) = q -> goes C m l q r 1 -> goes C m l PLen r (length m + 4)).
  { intros q r Hq Hr. replace (length m + 4)%nat with (S (S (length m) + 2)) by lia. apply H0.
    eapply goes_trans; [exact HP|]. apply goes_step; [exact I|]. rewrite Hq. exact Hr. }
  assert (Hfin : forall k, tstep C m l (PAdj (zlen m) i) = PRead k ->
     exists p, ends (s <- sm_index m k ;; Ok (sm_devID s, u64 (u64 (sm_offset s + l) - sm_logical s))) p /\ ~ running p /\ goes C m l PLen p (length m + 4)).
  { intros k Hk. destruct (HF k) as (p & A & B & D). exists p. split; [exact A|]. split; [exact B|]. eapply HG; eassumption. }
  destruct (i =? zlen m); cbn [rbind].
  - apply Hfin. exact EA.
  - destruct (0 <? i); cbn [rbind].
    + destruct (sm_index_cases m i) as [[e E]|E]; rewrite E in *; cbn [rbind].
      * destruct (sm_logical e =? l); cbn [negb]; apply Hfin; exact EA.
      * exists PPanic. split; [reflexivity|]. split; [intros []|]. eapply HG; [exact EA|]. apply goes_refl.
    + apply Hfin. exact EA.
Qed.

(** ** C29 *)
(** Once the cache is filled (with what the index gives or anything else), every
    interleaving of any number of calls leaves it alone; each call, given enough
    steps, ends exactly as a call on its own, and before that is unfinished. *)
Theorem C29_filled_partial : forall C m ls sched i l,
  nth_error ls i = Some l ->
  let s := run (phys_step C) (phys_init (Some m) ls) sched in
  fst s = Some m /\
  exists p, nth_error (snd s) i = Some (l, p) /\
    (running p \/ ends (Physical_in m l) p) /\
    ((length m + 5 <= count_occ Nat.eq_dec sched i)%nat -> ends (Physical_in m l) p).
Proof.
  intros C m ls sched i l Hl s. unfold s, phys_init.
  assert (Hinit : forall i a p, nth_error (map (fun l => (l, PStart)) ls) i = Some (a, p) -> p = PStart).
  { intros i' a p Hp. apply nth_error_In in Hp. apply in_map_iff in Hp as (x & E & _). injection E as <- <-. reflexivity. }
  destruct (run_static (phys_step C) (Some m) (fun _ p => warm p) (fun a p => warm_step C m a p) sched (map (fun l => (l, PStart)) ls)) as [H1 H2].
  { intros i' a p Hp. rewrite (Hinit _ _ _ Hp). exact I. }
  split; [exact H1|]. specialize (H2 i). rewrite nth_error_map, Hl in H2. cbn [option_map fst snd] in H2.
  rewrite H2. eexists. split; [reflexivity|]. set (k := count_occ Nat.eq_dec sched i). change (fun p => snd (phys_step C l (Some m) p)) with (tstep C m l).
  destruct (call_goes C m l) as (p & HE & HN & HG0).
  assert (HG : goes C m l PStart p (length m + 5)) by (replace (length m + 5)%nat with (S (length m + 4)) by lia; apply goes_step; [exact I|exact HG0]).
  destruct HG as (k0 & Hk0 & E & HR).
  assert (Hend : (k0 <= k)%nat -> iter k (tstep C m l) PStart = p).
  { intros Hk. replace k with (k0 + (k - k0))%nat by lia. rewrite iter_add, E. apply done_stays. exact HN. }
  split.
  - destruct (Nat.lt_ge_cases k k0) as [Hlt|Hge]; [left; apply HR; exact Hlt|right; rewrite Hend by exact Hge; exact HE].
  - intros Hk. rewrite Hend by lia. exact HE.
Qed.
(** starting with an empty cache: if one request gets through the filling before
    any other takes its first step, all requests get the right answer *)
Lemma fill_alone C : forall rest a ls ts l0, C = a ++ rest -> ts = (l0, PLoad rest) :: ls ->
  run (phys_step C) (Some a, ts) (repeat 0%nat (2 * length rest + 1)) = (Some C, (l0, PLen) :: ls).
Proof.
  induction rest as [|e rest IH]; intros a ls ts l0 HC ->.
  - rewrite app_nil_r in HC. subst a. reflexivity.
  - replace (2 * length (e :: rest) + 1)%nat with (S (S (2 * length rest + 1))) by (cbn [length]; lia). cbn [repeat].
    unfold run. cbn [fold_left]. unfold step1 at 2 3. cbn [fst snd nth_error phys_step upd lst].
    fold (run (phys_step C) (Some (a ++ [e]), (l0, PLoad rest) :: ls) (repeat 0%nat (2 * length rest + 1))).
    apply IH; [rewrite <- app_assoc; exact HC|reflexivity].
Qed.
Theorem C29_first_alone_partial : forall C ls sched i l,
  nth_error ls i = Some l ->
  let s := run (phys_step C) (phys_init None ls) (repeat 0%nat (2 * length C + 3) ++ sched) in
  fst s = Some C /\
  exists p, nth_error (snd s) i = Some (l, p) /\ (running p \/ ends (Physical_in C l) p) /\
    ((length C + 5 <= count_occ Nat.eq_dec sched i)%nat -> ends (Physical_in C l) p).
Proof.
  intros C ls sched i l Hl s. unfold s. destruct ls as [|l0 ls]; [destruct i; discriminate|].
  assert (E : run (phys_step C) (phys_init None (l0 :: ls)) (repeat 0%nat (2 * length C + 3)) = (Some C, (l0, PLen) :: map (fun l => (l, PStart)) ls)).
  { replace (2 * length C + 3)%nat with (S (S (2 * length C + 1))) by lia. cbn [repeat]. unfold run. cbn [fold_left]. unfold phys_init.
    unfold step1 at 2 3. cbn [fst snd nth_error phys_step upd map].
    fold (run (phys_step C) (Some [], (l0, PLoad C) :: map (fun l => (l, PStart)) ls) (repeat 0%nat (2 * length C + 1))).
    apply (fill_alone C C []); reflexivity. }
  unfold run. rewrite fold_left_app. fold (run (phys_step C) (phys_init None (l0 :: ls)) (repeat 0%nat (2 * length C + 3))). rewrite E.
  fold (run (phys_step C) (Some C, (l0, PLen) :: map (fun l => (l, PStart)) ls) sched).
  set (ts := (l0, PLen) :: map (fun l => (l, PStart)) ls).
  assert (Hin : forall i a p, nth_error ts i = Some (a, p) -> p = PStart \/ p = PLen).
  { intros [|i'] a p Hp; cbn [nth_error ts] in Hp; [injection Hp as <- <-; right; reflexivity|].
    apply nth_error_In in Hp. apply in_map_iff in Hp as (x & E' & _). injection E' as <- <-. left. reflexivity. }
  destruct (run_static (phys_step C) (Some C) (fun _ p => warm p) (fun a p => warm_step C C a p) sched ts) as [H1 H2].
  { intros i' a p Hp. destruct (Hin _ _ _ Hp) as [->| ->]; exact I. }
  split; [exact H1|].
  assert (Hts : exists p0, nth_error ts i = Some (l, p0)).
  { destruct i as [|i]; cbn [nth_error ts] in *; [injection Hl as <-; eauto|]. rewrite nth_error_map, Hl. cbn. eauto. }
  destruct Hts as [p0 Hts]. rewrite (H2 i), Hts. cbn [option_map fst snd]. eexists. split; [reflexivity|].
  set (k := count_occ Nat.eq_dec sched i). change (fun p => snd (phys_step C l (Some C) p)) with (tstep C C l).
  destruct (call_goes C C l) as (p & HE & HN & HG0).
  assert (HG : goes C C l p0 p (length C + 5)).
  { destruct (Hin _ _ _ Hts) as [->| ->].
    - replace (length C + 5)%nat with (S (length C + 4)) by lia; apply goes_step; [exact I|exact HG0].
    - destruct HG0 as (k0 & A & B). exists k0. split; [lia|exact B]. }
  destruct HG as (k0 & Hk0 & E0 & HR).
  assert (Hend : (k0 <= k)%nat -> iter k (tstep C C l) p0 = p).
  { intros Hk. replace k with (k0 + (k - k0))%nat by lia. rewrite iter_add, E0. apply done_stays. exact HN. }
  split.
  - destruct (Nat.lt_ge_cases k k0) as [Hlt|Hge]; [left; apply HR; exact Hlt|right; rewrite Hend by exact Hge; exact HE].
  - intros Hk. rewrite Hend by lia. exact HE.
Qed.
(** otherwise not: a request that sees the map between creation and the first
    append aborts, for every chunk map and address, though alone it would not *)
Theorem C29_abort_refuted : forall C l0 l1 r, Physical_in C l1 = Ok r -> exists sched,
  nth_error (snd (run (phys_step C) (phys_init None [l0; l1]) sched)) 1 = Some (l1, PPanic).
Proof.
  intros C l0 l1 r _. exists [0; 0; 1; 1; 1; 1; 1]%nat. reflexivity.
Qed.
(** and two requests filling at the same time leave a map that answers wrongly
    ever after *)
Definition C29a := mkStripe 1000 1 70000. Definition C29b := mkStripe 20000 1 90000.
Theorem C29_lasting_refuted : exists C sched m, 
  let s := run (phys_step C) (phys_init None [1500; 1500]) sched in
  (forall i l p, nth_error (snd s) i = Some (l, p) -> ~ running p) /\ fst s = Some m /\
  exists l, Physical_in m l <> Physical_in C l /\ exists r, Physical_in C l = Ok r.
Proof.
  exists [C29a; C29b], ([0;1; 0;0;0; 1; 0;0;0; 1;1;1;1;1] ++ repeat 0 9 ++ repeat 1 9)%nat, [C29b; C29a; C29b].
  cbv zeta. split; [|split; [vm_compute; reflexivity|]].
  - intros [|[|i]] l p H; vm_compute in H; try discriminate.
    + injection H as <- <-. intros [].
    + injection H as <- <-. intros [].
    + destruct i; discriminate.
  - exists 1000. split; [vm_compute; discriminate|]. eexists. vm_compute. reflexivity.
Qed.
Example C29_ex : nth_error [1500; 20100] 1 = Some 20100 /\
  nth_error (snd (run (phys_step [C29a; C29b]) (phys_init (Some [C29a; C29b]) [1500; 20100]) (concat (repeat [0;1]%nat 8)))) 1 = Some (20100, PDone (1, 90100)).
Proof. split; vm_compute; reflexivity. Qed.
Print Assumptions C29_filled_partial. Print Assumptions C29_first_alone_partial. Print Assumptions C29_abort_refuted. Print Assumptions C29_lasting_refuted.

(** ** C58 *)
(** what a complete listing of the directory is: for every name, the last item *)
Definition complete (L m : dirmap) : Prop := forall n, mget m n = mget (rev L) n.
(** every name seen is a name of the directory, with an item of that name *)
Definition genuine (L m : dirmap) : Prop := forall n d, mget m n = Some d -> In (n, d) L.
Lemma mget_cons n d m n' : mget ((n, d) :: m) n' = if bytes_eqb n n' then Some d else mget m n'.
Proof. unfold mget. cbn [List.find fst]. destruct (bytes_eqb n n'); reflexivity. Qed.
Lemma mget_mset m n d n' : mget (mset m n d) n' = if bytes_eqb n n' then Some d else mget m n'.
Proof.
  induction m as [|[a x] m IH]; cbn [mset]; [apply mget_cons|]. destruct (bytes_eqb a n) eqn:E.
  - apply bytes_eqb_eq in E. subst a. rewrite !mget_cons. destruct (bytes_eqb n n'); reflexivity.
  - rewrite !mget_cons, IH. destruct (bytes_eqb a n') eqn:E1; [|reflexivity]. apply bytes_eqb_eq in E1. subst a.
    destruct (bytes_eqb n n') eqn:E2; [|reflexivity]. apply bytes_eqb_eq in E2. subst n'. rewrite bytes_eqb_refl in E. discriminate.
Qed.
Lemma mget_app m m' n : mget (m ++ m') n = match mget m n with Some d => Some d | None => mget m' n end.
Proof.
  induction m as [|[a x] m IH]; [reflexivity|]. cbn [app]. rewrite !mget_cons, IH. destruct (bytes_eqb a n); reflexivity.
Qed.
Lemma mget_In m n d : mget m n = Some d -> In (n, d) m.
Proof.
  induction m as [|[a x] m IH]; [discriminate|]. rewrite mget_cons. destruct (bytes_eqb a n) eqn:E; intros H; [|right; auto].
  apply bytes_eqb_eq in E. injection H as <-. subst a. left. reflexivity.
Qed.
Definition dpc_ok (L : dirmap) (p : dpc) : Prop :=
  match p with DStart | DUse => True | DFill rest => exists pre, L = pre ++ rest | DDone seen => genuine L seen end.
(** whatever the interleaving: nothing that is not in the directory is ever seen *)
Theorem C58_genuine_partial : forall L k sched i seen,
  nth_error (snd (run (dir_step L) (dir_init [] k) sched)) i = Some (tt, DDone seen) -> genuine L seen.
Proof.
  intros L k sched.
  assert (G : forall s, genuine L (fst s) -> (forall i p, nth_error (snd s) i = Some (tt, p) -> dpc_ok L p) ->
    let s' := run (dir_step L) s sched in genuine L (fst s') /\ forall i p, nth_error (snd s') i = Some (tt, p) -> dpc_ok L p).
  { induction sched as [|j sched IH]; intros s Hg Hp; [split; assumption|]. unfold run. cbn [fold_left]. fold (run (dir_step L) (step1 (dir_step L) s j) sched).
    apply IH; unfold step1; destruct (nth_error (snd s) j) as [[[] p]|] eqn:E; try assumption.
    - pose proof (Hp j p E) as Ho. destruct p as [|[|[n d] rest]| |seen]; cbn [dir_step fst]; try assumption.
      intros n' d' H. rewrite mget_mset in H. destruct (bytes_eqb n n') eqn:Eb; [|auto]. injection H as <-. apply bytes_eqb_eq in Eb. subst n'.
      destruct Ho as [pre ->]. apply in_or_app. right. left. reflexivity.
    - pose proof (Hp j p E) as Ho. intros i q Hq.
      assert (Hn : dpc_ok L (snd (dir_step L tt (fst s) p))).
      { destruct p as [|[|[n d] rest]| |seen]; cbn [dir_step snd].
        - destruct (fst s); [exists []; reflexivity|exact I].
        - exact I.
        - destruct Ho as [pre ->]. exists (pre ++ [(n, d)]). rewrite <- app_assoc. reflexivity.
        - exact Hg.
        - exact Ho. }
      destruct (dir_step L tt (fst s) p) as [m' p']. cbn [snd] in *. rewrite nth_upd in Hq. destruct (Nat.eqb j i) eqn:Eb; [|eauto].
      apply Nat.eqb_eq in Eb. subst i. rewrite E in Hq. cbn in Hq. injection Hq as <-. exact Hn. }
  intros i seen H. refine (proj2 (G (dir_init [] k) _ _) i (DDone seen) H).
  - intros n d Hd. discriminate.
  - intros j p Hj. apply nth_error_In, repeat_spec in Hj. injection Hj as ->. exact I.
Qed.
(** a directory that has been read by one request is seen completely by all
    requests that start later, in every interleaving *)
Lemma fill_complete L : forall rest pre m, L = pre ++ rest -> (forall n, mget m n = mget (rev pre) n) ->
  forall n, mget (fold_left (fun m e => mset m (fst e) (snd e)) rest m) n = mget (rev L) n.
Proof.
  induction rest as [|[a x] rest IH]; intros pre m -> H n; [rewrite app_nil_r; apply H|]. cbn [fold_left fst snd].
  rewrite (IH (pre ++ [(a, x)]) (mset m a x)); [reflexivity|rewrite <- app_assoc; reflexivity|].
  intros n'. rewrite mget_mset, rev_app_distr. cbn [rev app]. rewrite mget_cons, H. reflexivity.
Qed.
Lemma fill_run L : forall rest ts m, run (dir_step L) (m, (tt, DFill rest) :: ts) (repeat 0%nat (length rest + 1)) =
  (fold_left (fun m e => mset m (fst e) (snd e)) rest m, (tt, DUse) :: ts).
Proof.
  induction rest as [|[a x] rest IH]; intros ts m; [reflexivity|]. cbn [length plus repeat]. unfold run. cbn [fold_left]. unfold step1 at 2.
  cbn [fst snd nth_error dir_step upd]. apply IH.
Qed.
Lemma filled_nonempty rest : forall m, m <> [] -> fold_left (fun (m : dirmap) e => mset m (fst e) (snd e)) rest m <> [].
Proof.
  induction rest as [|[a x] rest IH]; intros m Hm; [exact Hm|]. cbn [fold_left]. apply IH. destruct m as [|[b y] m]; [congruence|]. cbn [mset].
  destruct (bytes_eqb b (fst (a, x))); discriminate.
Qed.
Definition use_ok (m : dirmap) (p : dpc) : Prop := match p with DStart | DUse => True | DDone s => s = m | DFill _ => False end.
Theorem C58_first_alone_partial : forall L k sched i p, (0 < length L)%nat ->
  let s := run (dir_step L) (dir_init [] k) (repeat 0%nat (length L + 2) ++ sched) in
  nth_error (snd s) i = Some (tt, p) ->
  (forall seen, p = DDone seen -> complete L seen) /\
  ((2 <= count_occ Nat.eq_dec sched i)%nat -> exists seen, p = DDone seen).
Proof.
  intros L k sched i p HL s. unfold s. destruct k as [|k].
  { intros H. exfalso. assert (E : forall sc, run (dir_step L) (dir_init [] 0) sc = ([], [])).
    { intros sc. induction sc as [|j sc IH]; [reflexivity|]. unfold run in *. cbn [fold_left]. unfold step1 at 2. cbn. destruct j; exact IH. }
    rewrite E in H. destruct i; discriminate. }
  unfold run. rewrite fold_left_app. fold (run (dir_step L) (dir_init [] (S k)) (repeat 0%nat (length L + 2))).
  assert (E : run (dir_step L) (dir_init [] (S k)) (repeat 0%nat (length L + 2)) =
    (fold_left (fun m e => mset m (fst e) (snd e)) L [], (tt, DUse) :: repeat (tt, DStart) k)).
  { replace (length L + 2)%nat with (S (length L + 1)) by lia. cbn [repeat]. unfold run. cbn [fold_left]. unfold step1 at 2.
    cbn [fst snd nth_error dir_step upd dir_init repeat]. apply fill_run. }
  rewrite E. set (m := fold_left (fun m e => mset m (fst e) (snd e)) L []).
  assert (Hc : complete L m) by (intros n; apply (fill_complete L L [] []); reflexivity).
  assert (Hm : m <> []). { unfold m. destruct L as [|[a x] L]; [cbn in HL; lia|]. cbn [fold_left mset]. apply filled_nonempty. discriminate. }
  fold (run (dir_step L) (m, (tt, DUse) :: repeat (tt, DStart) k) sched). clearbody m.
  set (ts := (tt, DUse) :: repeat (tt, DStart) k).
  assert (Hin : forall i a p, nth_error ts i = Some (a, p) -> p = DUse \/ p = DStart).
  { intros [|i'] a q Hq; cbn [nth_error ts] in Hq; [injection Hq as <- <-; left; reflexivity|]. apply nth_error_In, repeat_spec in Hq. right. congruence. }
  assert (HS : forall a q, use_ok m q -> fst (dir_step L a m q) = m /\ use_ok m (snd (dir_step L a m q))).
  { intros a q Hq. destruct q; cbn [dir_step fst snd use_ok] in *; try contradiction; (split; [reflexivity|]); try exact I; try exact Hq; [|reflexivity].
    destruct m; [congruence|exact I]. }
  destruct (run_static (dir_step L) m (fun _ q => use_ok m q) HS sched ts) as [H1 H2].
  { intros i' a q Hq. destruct (Hin _ _ _ Hq) as [->| ->]; exact I. }
  intros Hp. rewrite (H2 i) in Hp. destruct (nth_error ts i) as [[a q]|] eqn:Ei; [|discriminate]. cbn [option_map fst snd] in Hp.
  injection Hp as _ <-.
  set (f := fun q => snd (dir_step L a m q)).
  assert (HI : forall n q, use_ok m q -> use_ok m (iter n f q)).
  { induction n as [|n IH]; intros q' Hq'; [exact Hq'|]. cbn [iter]. apply IH. apply HS. exact Hq'. }
  assert (Hq : use_ok m q) by (destruct (Hin _ _ _ Ei) as [->| ->]; exact I).
  split.
  - intros seen Es. specialize (HI (count_occ Nat.eq_dec sched i) q Hq). rewrite Es in HI. cbn in HI. subst seen. exact Hc.
  - intros Hk. assert (Hd : forall n, iter n f (DDone m) = DDone m) by (induction n as [|n IH]; [reflexivity|exact IH]).
    assert (Hs : f DStart = DUse) by (unfold f; cbn; destruct m; [congruence|reflexivity]).
    destruct (count_occ Nat.eq_dec sched i) as [|[|n]]; try lia. cbn [iter]. exists m.
    assert (Hu : f DUse = DDone m) by reflexivity. assert (Hd1 : f (DDone m) = DDone m) by reflexivity.
    destruct (Hin _ _ _ Ei) as [->| ->]; [rewrite Hu, Hd1|rewrite Hs, Hu]; apply Hd.
Qed.
(** otherwise not: a request that arrives while the first one is reading sees
    the entries read so far only, for every directory of at least two names *)
Theorem C58_refuted : forall n d n2 d2 L, n <> n2 -> exists sched seen,
  nth_error (snd (run (dir_step ((n, d) :: (n2, d2) :: L)) (dir_init [] 2) sched)) 1 = Some (tt, DDone seen) /\
  mget seen n2 = None.
Proof.
  intros n d n2 d2 L Hn. exists [0; 0; 1; 1]%nat, [(n, d)]. split; [reflexivity|]. rewrite mget_cons.
  replace (bytes_eqb n n2) with false by (symmetry; apply bytes_eqb_neq; exact Hn). reflexivity.
Qed.
Example C58_ex : let L := [([x61], sl [x01]); ([x62], sl [x02])] in (0 < length L)%nat /\
  nth_error (snd (run (dir_step L) (dir_init [] 2) (repeat 0%nat (length L + 2) ++ [1; 0; 1; 1]%nat))) 1 = Some (tt, DDone L).
Proof. split; [cbn; lia|vm_compute; reflexivity]. Qed.
Print Assumptions C58_genuine_partial. Print Assumptions C58_first_alone_partial. Print Assumptions C58_refuted.
