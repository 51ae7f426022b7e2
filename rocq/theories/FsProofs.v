(** Lemmas about the file tree. *)
From Verif Require Import Go GoProofs Path Fs.
From Coq Require Import ZifyBool ZifyNat ZifyN.
Ltac Zify.zify_post_hook ::= Z.div_mod_to_equations.

Lemma assoc_del F p p' : p <> p' -> assoc (del F p) p' = assoc F p'.
Proof.
  intros Hn. induction F as [|[q n] F IH]; [reflexivity|]. unfold del in *. cbn [filter fst]. destruct (cpath_dec q p) as [->|N].
  - cbn [assoc]. destruct (cpath_dec p p'); [contradiction|exact IH].
  - cbn [assoc]. destruct (cpath_dec q p'); [reflexivity|exact IH].
Qed.
Lemma assoc_del_same F p : assoc (del F p) p = None.
Proof.
  induction F as [|[q n] F IH]; [reflexivity|]. unfold del in *. cbn [filter fst]. destruct (cpath_dec q p) as [->|N]; [exact IH|].
  cbn [assoc]. destruct (cpath_dec q p); [contradiction|exact IH].
Qed.
Lemma look_put F p n p' : p <> [] -> look (put_node F p n) p' = if cpath_dec p p' then Some n else look F p'.
Proof.
  intros Hp. destruct p' as [|c p']; [destruct (cpath_dec p []); [contradiction|reflexivity]|].
  unfold look, put_node. cbn [assoc]. destruct (cpath_dec p (c :: p')) as [|N]; [reflexivity|]. apply assoc_del; exact N.
Qed.
Lemma look_del F p p' : p <> [] -> look (del F p) p' = if cpath_dec p p' then None else look F p'.
Proof.
  intros Hp. destruct p' as [|c p']; [destruct (cpath_dec p []); [contradiction|reflexivity]|].
  unfold look. destruct (cpath_dec p (c :: p')) as [->|N]; [apply assoc_del_same|apply assoc_del; exact N].
Qed.
Lemma look_missing F p : look F p <> Some NDir -> p <> [].
Proof. intros H ->. apply H. reflexivity. Qed.

Lemma walk_nil L F fl cur : walk L F fl [] cur = Some cur.
Proof. destruct L; reflexivity. Qed.
Lemma walk_cons L F fl c rest cur : walk L F fl (c :: rest) cur =
  if is_dotdot c then walk L F fl rest (removelast cur)
  else if long_name c then None
  else match look F (cur ++ [c]) with
       | Some NDir => walk L F fl rest (cur ++ [c])
       | Some (NLink t) =>
           if match rest with [] => negb fl | _ => false end then Some (cur ++ [c])
           else match L with
                | O => None
                | S L => walk L F fl (comps t ++ rest) (if is_abs t then [] else cur)
                end
       | Some (NFile _) | None => match rest with [] => Some (cur ++ [c]) | _ => None end
       end.
Proof. destruct L; reflexivity. Qed.
(** every directory and link of [F] is in [F'] *)
Definition mono (F F' : fs) : Prop :=
  (forall p, look F p = Some NDir -> look F' p = Some NDir) /\ (forall p t, look F p = Some (NLink t) -> look F' p = Some (NLink t)).
Lemma walk_mono F F' : mono F F' -> forall L todo cur q, walk L F true todo cur = Some q -> look F q = Some NDir -> walk L F' true todo cur = Some q.
Proof.
  intros [HD HL]. induction L as [|L IHL]; (induction todo as [|c rest IH]; intros cur q H Hq; [rewrite walk_nil in *; exact H|]); rewrite walk_cons in *;
    (destruct (is_dotdot c); [apply IH; assumption|]); (destruct (long_name c); [discriminate|]); destruct (look F (cur ++ [c])) as [[ct| |t]|] eqn:EL.
  - destruct rest; [|discriminate]. injection H as <-. congruence.
  - rewrite (HD _ EL). apply IH; assumption.
  - rewrite (HL _ _ EL). destruct rest; discriminate H.
  - destruct rest; [|discriminate]. injection H as <-. congruence.
  - destruct rest; [|discriminate]. injection H as <-. congruence.
  - rewrite (HD _ EL). apply IH; assumption.
  - rewrite (HL _ _ EL). cbn [negb] in *. destruct rest; apply IHL; assumption.
  - destruct rest; [|discriminate]. injection H as <-. congruence.
Qed.
(** going on from a directory *)
Lemma walk_app F fl b : b <> [] -> forall L a cur q, walk L F true a cur = Some q -> look F q = Some NDir -> exists L', walk L F fl (a ++ b) cur = walk L' F fl b q.
Proof.
  intros Hb. induction L as [|L IHL]; (induction a as [|c rest IH]; intros cur q H Hq; [rewrite walk_nil in H; injection H as ->; cbn [app]; eexists; reflexivity|]);
    cbn [app]; rewrite walk_cons in *; (destruct (is_dotdot c); [apply IH; assumption|]); (destruct (long_name c); [discriminate|]); destruct (look F (cur ++ [c])) as [[ct| |t]|] eqn:EL;
    try (apply IH; assumption); try (destruct rest; [|discriminate H]; injection H as <-; congruence).
  - destruct rest; discriminate H.
  - cbn [negb] in H. replace (match rest ++ b with [] => negb fl | _ :: _ => false end) with false by (destruct rest; [cbn [app]; destruct b; [congruence|reflexivity]|reflexivity]).
    rewrite app_assoc. apply IHL; [|exact Hq]. destruct rest; exact H.
Qed.
(** the tree is a tree: everything lies in a directory *)
Definition wf_fs (F : fs) : Prop := forall p c, look F (p ++ [c]) <> None -> look F p = Some NDir.
Lemma wf_removelast F p : wf_fs F -> look F p = Some NDir -> look F (removelast p) = Some NDir.
Proof.
  intros W H. destruct p as [|c p] using rev_ind; [reflexivity|]. rewrite removelast_last. apply (W p c). congruence.
Qed.
(** a leading part of a path to a directory leads to something *)
Lemma walk_leading F F' b : wf_fs F -> mono F F' -> forall L a cur q, look F cur = Some NDir -> walk L F true (a ++ b) cur = Some q -> look F q = Some NDir ->
  exists q', walk L F' false a cur = Some q' /\ look F' q' <> None.
Proof.
  intros W [HD HL]. induction L as [|L IHL]; (induction a as [|c rest IH]; intros cur q Hc H Hq; [rewrite walk_nil; exists cur; split; [reflexivity|rewrite (HD _ Hc); discriminate]|]);
    cbn [app] in H; rewrite walk_cons in *; (destruct (is_dotdot c); [apply (IH _ q); [apply wf_removelast; assumption|assumption|assumption]|]); (destruct (long_name c); [discriminate|]);
    destruct (look F (cur ++ [c])) as [[ct| |t]|] eqn:EL;
    try (rewrite (HD _ EL); apply (IH _ q); assumption); try (destruct (rest ++ b); [|discriminate H]; injection H as <-; congruence).
  - rewrite (HL _ _ EL). destruct rest as [|? ?]; cbn [negb app] in *; [eexists; split; [reflexivity|rewrite (HL _ _ EL); discriminate]|discriminate H].
  - rewrite (HL _ _ EL). assert (H' : walk L F true (comps t ++ rest ++ b) (if is_abs t then [] else cur) = Some q) by (destruct (rest ++ b); exact H).
    rewrite app_assoc in H'. assert (Hcur : look F (if is_abs t then [] else cur) = Some NDir) by (destruct (is_abs t); [reflexivity|exact Hc]).
    pose proof (IHL _ _ q Hcur H' Hq) as G. destruct rest as [|r0 rest0]; cbn [negb]; [eexists; split; [reflexivity|rewrite (HL _ _ EL); discriminate]|exact G].
Qed.
(** where no links are, names lead where they say *)
Lemma walk_inside F fl D : (forall p t, look F (D ++ p) <> Some (NLink t)) -> forall cs pre L q, Forall (fun c => is_dotdot c = false) cs ->
  walk L F fl cs (D ++ pre) = Some q -> q = D ++ pre ++ cs.
Proof.
  intros HN. induction cs as [|c cs IH]; intros pre L q HF H; [rewrite walk_nil in H; injection H as <-; rewrite app_nil_r; reflexivity|].
  inversion HF as [|? ? H1 H2]; subst. rewrite walk_cons, H1 in H. destruct (long_name c); [discriminate|]. rewrite <- app_assoc in H.
  destruct (look F (D ++ pre ++ [c])) as [[ct| |t]|] eqn:EL.
  - destruct cs; [|discriminate]. injection H as <-. reflexivity.
  - apply IH in H; [|exact H2]. rewrite <- app_assoc in H. exact H.
  - destruct (HN _ _ EL).
  - destruct cs; [|discriminate]. injection H as <-. reflexivity.
Qed.
