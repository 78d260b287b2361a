(** C29: the thread crew, over every history of Enqueue/Wait calls and every schedule (TCrew.v: [reach]). *)
From Coq Require Import List Arith Lia Bool.
From Verif Require Import Base TCrew TCrewLemmas.
Import ListNotations.
Local Open Scope nat_scope.

(** how often an event occurred *)
Definition times (e : event) (h : list event) : nat := length (filter (fun x => if ev_dec x e then true else false) h).
Lemma times_count e h : times e h = count e h.
Proof. unfold times, count. induction h as [|x h IH]; [reflexivity|]. cbn. destruct (ev_dec x e); cbn; rewrite IH; reflexivity. Qed.
(** Enqueue calls that returned after the last callback *)
Fixpoint returned_since (rev_h : list event) : nat :=
  match rev_h with [] => 0 | Callback _ :: _ => 0 | Enqueued _ :: h => S (returned_since h) | _ :: h => returned_since h end.
Lemma since_rev h : since h = returned_since (rev h).
Proof. induction h as [|e h IH] using rev_ind; [reflexivity|]. rewrite since_snoc, rev_app_distr. cbn [rev app returned_since]. destruct e; rewrite ?IH; reflexivity. Qed.

(** At any point of any run, a job is entered at most once, left at most as often as entered, and only if Enqueue was called with it. *)
Theorem C29_at_most_once n s j : reach n s ->
  times (Start j) (hist s) <= 1 /\ times (Finish j) (hist s) <= times (Start j) (hist s) /\ times (Start j) (hist s) <= times (Called j) (hist s) /\ times (Called j) (hist s) <= 1.
Proof.
  intros R. pose proof (reach_inv n s R) as I. rewrite !times_count. pose proof (iA s I j) as A. pose proof (iB s I j) as B. pose proof (iK s I j) as K.
  assert (RH : sumf (runs j) (members s) <= sumf (hold j) (members s)).
  { assert (P : forall m, In m (members s) -> runs j m <= hold j m).
    { intros m Hm. apply In_nth_error in Hm. destruct Hm as [i Hm]. pose proof (iM s I i m Hm) as MI. unfold minv, runs, hold in *. destruct (pc m); try lia. destruct MI as (_ & _ & ->). lia. }
    revert P. generalize (members s). induction l as [|m l IH]; intros P; [cbn; lia|]. rewrite !sumf_cons. assert (runs j m <= hold j m) by (apply P; now left). assert (sumf (runs j) l <= sumf (hold j) l) by (apply IH; intros x Hx; apply P; now right). lia. }
  unfold ltn in *. destruct (j <? next s); lia.
Qed.
Print Assumptions C29_at_most_once.

(** When Wait calls its callback (and returns k), every job whose Enqueue had returned before has been entered and left
    exactly once, and k is the number of those since the previous Wait. *)
Theorem C29_wait n s h1 k h2 : reach n s -> hist s = h1 ++ Callback k :: h2 ->
  k = returned_since (rev h1) /\ forall j, In (Enqueued j) h1 -> times (Start j) h1 = 1 /\ times (Finish j) h1 = 1.
Proof. intros R E. rewrite <- since_rev. destruct (iH s (reach_inv n s R) h1 k h2 E) as [A B]. split; [exact A|]. intros j Hj. rewrite !times_count. now apply B. Qed.
Print Assumptions C29_wait.

(** No deadlock: a crew in which the library cannot take a step has returned from every call and run every job exactly once. *)
Theorem C29_no_deadlock n s : reach n s -> 2 <= n -> (forall s', ~ work_step s s') ->
  calls s = [] /\ waiting s = None /\ forall j, In (Called j) (hist s) -> times (Start j) (hist s) = 1 /\ times (Finish j) (hist s) = 1.
Proof.
  intros R Hn Q. destruct (quiescent n s R ltac:(lia) Q) as (A & B & C). split; [exact A|]. split; [exact B|]. intros j Hj. rewrite !times_count. destruct (C j) as [-> ->].
  pose proof (iK s (reach_inv n s R) j) as K. assert (count (Called j) (hist s) >= 1) by (unfold count; apply count_occ_In; exact Hj). unfold ltn in *. destruct (j <? next s); lia.
Qed.
Print Assumptions C29_no_deadlock.

(** No livelock: between two calls by the user, and without wake-ups for no reason, the library takes finitely many steps
    under every schedule.  With C29_no_deadlock: every call returns and every job is run. *)
Theorem C29_terminates : forall f : nat -> crew, ~ (forall k, work_step (f k) (f (S k))).
Proof.
  intros f H. assert (A : forall s, Acc (fun s' s => work_step s s') s -> forall k, f k = s -> False).
  { intros s Hs. induction Hs as [s _ IH]. intros k E. apply (IH (f (S k))) with (k := S k); [rewrite <- E; apply H|reflexivity]. }
  exact (A (f 0) (work_wf (f 0)) 0 eq_refl).
Qed.
Print Assumptions C29_terminates.

(** A run: three jobs on three members, then Wait. *)
Lemma run1 n s s' : work_step s s' -> reach n s -> reach n s'. Proof. intros. eapply r_step; [eassumption|]. right; now left. Qed.
Lemma runc n s s' : call_step s s' -> reach n s -> reach n s'. Proof. intros. eapply r_step; [eassumption|]. now left. Qed.
Ltac go R t := let R' := fresh "R" in first [pose proof (run1 _ _ _ t R) as R'|pose proof (runc _ _ _ t R) as R']; cbn in R'; clear R; rename R' into R.
Example C29_run : exists s, reach 3 s /\ hist s = [Called 0; Enqueued 0; Called 1; Enqueued 1; Start 1; Start 0; Finish 0; Finish 1; Callback 2].
Proof.
  pose proof (r_init 3) as R. cbn in R.
  go R (c_enqueue (crew_init 3) eq_refl).
  match type of R with reach _ ?s => go R (w_place s 0 0 0 _ eq_refl eq_refl eq_refl) end.
  match type of R with reach _ ?s => go R (w_signal s 0 0 0 _ eq_refl eq_refl) end.
  match type of R with reach _ ?s => go R (c_enqueue s eq_refl) end.
  match type of R with reach _ ?s => go R (w_place s 0 1 1 _ eq_refl eq_refl eq_refl) end.
  match type of R with reach _ ?s => go R (w_signal s 0 1 1 _ eq_refl eq_refl) end.
  match type of R with reach _ ?s => go R (c_wait s eq_refl eq_refl) end.
  match type of R with reach _ ?s => go R (w_snapshot s eq_refl) end.
  match type of R with reach _ ?s => go R (w_block s 2 eq_refl ltac:(cbn; lia)) end.
  match type of R with reach _ ?s => go R (w_take s 1 _ _ eq_refl eq_refl eq_refl) end.
  match type of R with reach _ ?s => go R (w_start s 1 _ 1 eq_refl eq_refl eq_refl) end.
  match type of R with reach _ ?s => go R (w_take s 0 _ _ eq_refl eq_refl eq_refl) end.
  match type of R with reach _ ?s => go R (w_start s 0 _ 0 eq_refl eq_refl eq_refl) end.
  match type of R with reach _ ?s => go R (w_finish s 0 _ 0 eq_refl eq_refl) end.
  match type of R with reach _ ?s => go R (w_clear s 0 _ eq_refl eq_refl) end.
  match type of R with reach _ ?s => go R (w_count s 0 _ eq_refl eq_refl) end.
  match type of R with reach _ ?s => go R (w_finish s 1 _ 1 eq_refl eq_refl) end.
  match type of R with reach _ ?s => go R (w_clear s 1 _ eq_refl eq_refl) end.
  match type of R with reach _ ?s => go R (w_count s 1 _ eq_refl eq_refl) end.
  match type of R with reach _ ?s => go R (w_again s 1 _ eq_refl eq_refl) end.
  match type of R with reach _ ?s => go R (w_idle s 1 _ eq_refl eq_refl eq_refl) end.
  match type of R with reach _ ?s => go R (w_callback s 2 eq_refl ltac:(cbn; lia)) end.
  eexists. split; [exact R|reflexivity].
Qed.

(* ---- TCrew_Destroy ---- *)
Inductive dsteps : crew * dpc -> crew * dpc -> Prop :=
| ds_refl x : dsteps x x
| ds_step x y z : dsteps x y -> destroy_step y z -> dsteps x z.
(** Destroy is not safe while a job is in progress: if the first member is inside a job (no call underway), there is a
    schedule after which Destroy never returns, whatever happens, spurious wake-ups included: the request to exit is
    overwritten by line 28 when the job returns. *)
Definition lost (x : crew * dpc) : Prop := snd x = DJoin 0 /\ calls (fst x) = [] /\ exists m, nth_error (members (fst x)) 0 = Some m /\
  match pc m with PRun _ | PClear => True | PCount | PStat | PTop | PSleep => tsk m = None | _ => False end.
Lemma lost_step x y : lost x -> destroy_step x y -> lost y.
Proof.
  intros (D & C & m & Hm & P) H. destruct H as [s s' d W L|s i|s i x Hx A|s i x Hx A|s i x Hx|s i x Hx A|s]; cbn [fst snd] in *; try discriminate.
  - assert (U : forall i (x : member) l, nth_error l i = Some x -> forall v, nth_error (upd i v l) 0 = if Nat.eqb i 0 then Some v else nth_error l 0).
    { intros i x l Hx v. rewrite nth_error_upd. destruct (Nat.eqb_spec i 0) as [->|]; [|reflexivity]. assert (0 < length l) by (apply nth_error_Some; congruence). destruct (Nat.ltb_spec 0 (length l)); [reflexivity|lia]. }
    split; [exact D|]. cbn [fst snd] in *. clear D L.
    destruct W as [W|W]; destruct W; prj; rewrite ?C in *; try (match goal with H : nth_error [] ?k = Some _ |- _ => destruct k; discriminate end);
      (split; [reflexivity|]); try (exists m; split; [exact Hm|exact P]);
      try (match goal with H : nth_error (members _) ?i = Some ?x |- context[upd ?i ?v _] => rewrite (U i x _ H v); destruct (Nat.eqb_spec i 0) as [->|]; [|exists m; split; [exact Hm|exact P]]; assert (x = m) by congruence; subst x; eexists; split; [reflexivity|];
        cbn [pc tsk]; unfold wake_member; cbn [pc tsk] end);
      try (match goal with H : pc m = _ |- _ => rewrite H in P end); try exact P; try exact I; try reflexivity; try contradiction; try lia; try congruence.
    rewrite H0. exact P.
  - injection D as ->. rewrite Hm in Hx. injection Hx as <-. rewrite A in P. contradiction.
Qed.
Theorem C29_destroy_refuted n s m j : reach n s -> calls s = [] -> nth_error (members s) 0 = Some m -> pc m = PRun j ->
  exists s1, dsteps (s, DLock 0) (s1, DJoin 0) /\ forall s2 d, dsteps (s1, DJoin 0) (s2, d) -> d <> DReturned.
Proof.
  intros R C Hm P. pose proof (iM s (reach_inv n s R) 0 m Hm) as MI. unfold minv in MI. rewrite P in MI. destruct MI as (B & A & T).
  set (m1 := Mem (busy m) (alive m) (Some ThreadExit) (pc m)). set (sa := set_members s (upd 0 m1 (members s))).
  assert (Ha : nth_error (members sa) 0 = Some m1) by (unfold sa; cbn [members set_members]; eapply nth_upd_same; eauto).
  set (sb := set_members sa (upd 0 (wake_member m1) (members sa))). exists sb. split.
  - eapply ds_step; [eapply ds_step; [eapply ds_step; [apply ds_refl|apply d_lock]|exact (d_hit s 0 m Hm A)]|exact (d_signal sa 0 m1 Ha)].
  - assert (L0 : lost (sb, DJoin 0)).
    { split; [reflexivity|]. split; [exact C|]. exists (wake_member m1). split; [unfold sb; cbn [fst members set_members]; eapply nth_upd_same; eauto|]. unfold wake_member, m1; cbn [pc]. rewrite P. exact I. }
    assert (IND : forall x y, dsteps x y -> lost x -> lost y) by (intros x y H; induction H as [x|x y z H1 IH H2]; intros LX; [exact LX|exact (lost_step _ _ (IH LX) H2)]).
    intros s2 d H E. subst d. apply IND in H; [|exact L0]. destruct H as [H _]. discriminate.
Qed.
Print Assumptions C29_destroy_refuted.

(** Such a state is reachable. *)
Example C29_destroy_case : exists s m, reach 2 s /\ calls s = [] /\ nth_error (members s) 0 = Some m /\ pc m = PRun 0.
Proof.
  pose proof (r_init 2) as R. cbn in R.
  go R (c_enqueue (crew_init 2) eq_refl).
  match type of R with reach _ ?s => go R (w_place s 0 0 0 _ eq_refl eq_refl eq_refl) end.
  match type of R with reach _ ?s => go R (w_signal s 0 0 0 _ eq_refl eq_refl) end.
  match type of R with reach _ ?s => go R (w_take s 0 _ _ eq_refl eq_refl eq_refl) end.
  match type of R with reach _ ?s => go R (w_start s 0 _ 0 eq_refl eq_refl eq_refl) end.
  eexists. eexists. split; [exact R|]. split; [reflexivity|]. split; reflexivity.
Qed.

(* ---- thread creation failure ---- *)
Inductive steps : crew -> crew -> Prop := ss_refl s : steps s s | ss_step s s' s'' : steps s s' -> step s' s'' -> steps s s''.
Definition orphan (i j : nat) (s : crew) : Prop :=
  nth_error (members s) i = Some (Mem true true (Some (Job j)) PNone) /\ sumf (pend j) (calls s) = 0 /\ j < next s /\
  (forall k m, k <> i -> nth_error (members s) k = Some m -> tsk m = Some (Job j) -> pc m = PClear) /\ count (Start j) (hist s) = 0.
Lemma orphan_step i j s s' : orphan i j s -> step s s' -> orphan i j s'.
Proof.
  intros (Hi & Hp & Hn & Ho & Hc) H.
  assert (NP : forall k c, nth_error (calls s) k = Some c -> pend j c = 0) by (intros k c Hk; pose proof (sumf_in (pend j) _ _ (nth_error_In _ _ Hk)); lia).
  assert (UI : forall k m v, nth_error (members s) k = Some m -> pc m <> PNone -> nth_error (upd k v (members s)) i = nth_error (members s) i).
  { intros k m v Hk Pm. apply nth_upd_other. intros ->. rewrite Hi in Hk. injection Hk as <-. apply Pm. reflexivity. }
  assert (UO : forall k m v, nth_error (members s) k = Some m -> pc m <> PNone -> (tsk v = Some (Job j) -> pc v = PClear) -> forall k' m', k' <> i -> nth_error (upd k v (members s)) k' = Some m' -> tsk m' = Some (Job j) -> pc m' = PClear).
  { intros k m v Hk Pm Tv k' m' N Hk'. apply nth_upd_inv in Hk'. destruct Hk' as [[-> ->]|[_ Hk']]; [exact Tv|eapply Ho; eauto]. }
  assert (TN : forall k m, nth_error (members s) k = Some m -> pc m <> PNone -> pc m <> PClear -> tsk m <> Some (Job j)).
  { intros k m Hk Pm Pc T. apply Pc. apply (Ho k m); [|exact Hk|exact T]. intros ->. rewrite Hi in Hk. injection Hk as <-. apply Pm. reflexivity. }
  assert (WK : forall l, sumf (pend j) (map wake_call l) = sumf (pend j) l) by (intros l; apply sumf_map; intros []; reflexivity).
  destruct H as [H|[H|H]].
  - destruct H; unfold orphan; prj.
    + split; [exact Hi|]. split; [rewrite sumf_app, Hp; cbn [sumf fold_right pend]; unfold eqn; destruct (Nat.eqb_spec j (next s)); lia|]. split; [lia|]. split; [exact Ho|]. rewrite count_other by discriminate. exact Hc.
    + repeat (split; [assumption|]). exact Hc.
  - destruct H as [s k j0 i0 m Hk F Hm|s k j0 Hk F|s k i0 j0 m Hk Hm|s Hw|s r Hw Hr|s r Hw Hr|s i0 m Hm P T|s i0 m t Hm P T|s i0 m j0 Hm P T|s i0 m j0 Hm P|s i0 m Hm P|s i0 m Hm P|s i0 m Hm P|s i0 m Hm P G|s i0 m Hm P|s k Hr|s i0 m Hm P T]; unfold orphan; prj.
    + pose proof F as F'. apply first_free_some in F'. destruct F' as [_ (m0 & Hm0 & Hb)]. rewrite Nat.sub_0_r in Hm0.
      assert (NI : i0 <> i) by (intros ->; rewrite Hi in Hm0; injection Hm0 as <-; discriminate).
      pose proof (NP _ _ Hk) as N0. cbn [pend] in N0. unfold eqn in N0. destruct (Nat.eqb_spec j j0) as [|NJ]; [discriminate|].
      split; [rewrite nth_upd_other by auto; exact Hi|]. split; [pose proof (sumf_upd (pend j) _ _ _ (ESig i0 j0) Hk) as U; cbn [pend] in U; unfold eqn in U; destruct (Nat.eqb_spec j j0); lia|]. split; [exact Hn|]. split; [|exact Hc].
      intros k' m' N Hk'. apply nth_upd_inv in Hk'. destruct Hk' as [[-> ->]|[_ Hk']]; [cbn [tsk assign]; congruence|eapply Ho; eauto].
    + pose proof (NP _ _ Hk) as N0. split; [exact Hi|]. split; [pose proof (sumf_upd (pend j) _ _ _ (ESleep j0) Hk) as U; cbn [pend] in *; lia|]. auto.
    + split; [|split; [pose proof (sumf_remove (pend j) _ _ _ Hk); lia|split; [exact Hn|split; [|rewrite count_other by discriminate; exact Hc]]]].
      * destruct (Nat.eq_dec i i0) as [->|N]; [|rewrite nth_upd_other by auto; exact Hi]. rewrite (nth_upd_same _ _ _ _ Hm). rewrite Hi in Hm. injection Hm as <-. reflexivity.
      * intros k' m' N Hk'. apply nth_upd_inv in Hk'. destruct Hk' as [[-> ->]|[_ Hk']]; [cbn [tsk pc wake_member]; intros T0; rewrite (Ho _ _ N Hm T0); reflexivity|eapply Ho; eauto].
    + auto.
    + auto.
    + repeat (split; [assumption|]). rewrite count_other by discriminate. exact Hc.
    + rewrite WK. assert (PN : pc m <> PNone) by congruence. split; [rewrite (UI _ _ _ Hm PN); exact Hi|]. split; [exact Hp|]. split; [exact Hn|]. split; [apply (UO _ _ _ Hm PN); discriminate|exact Hc].
    + assert (PN : pc m <> PNone) by congruence. split; [rewrite (UI _ _ _ Hm PN); exact Hi|]. split; [exact Hp|]. split; [exact Hn|]. split; [apply (UO _ _ _ Hm PN); cbn [tsk pc]; intros T0; try reflexivity; exfalso; refine (TN _ _ Hm PN _ T0); congruence|exact Hc].
    + assert (PN : pc m <> PNone) by congruence. split; [rewrite (UI _ _ _ Hm PN); exact Hi|]. split; [exact Hp|]. split; [exact Hn|]. split; [apply (UO _ _ _ Hm PN); cbn [tsk pc]; intros T0; try reflexivity; exfalso; refine (TN _ _ Hm PN _ T0); congruence|].
      rewrite count_Start. assert (PC : pc m <> PClear) by congruence. pose proof (TN _ _ Hm PN PC) as TT. unfold eqn. destruct (Nat.eqb_spec j j0); [congruence|lia].
    + assert (PN : pc m <> PNone) by congruence. split; [rewrite (UI _ _ _ Hm PN); exact Hi|]. split; [exact Hp|]. split; [exact Hn|]. split; [apply (UO _ _ _ Hm PN); cbn [tsk pc]; intros T0; try reflexivity; exfalso; refine (TN _ _ Hm PN _ T0); congruence|].
      rewrite count_other by discriminate. exact Hc.
    + assert (PN : pc m <> PNone) by congruence. split; [rewrite (UI _ _ _ Hm PN); exact Hi|]. split; [exact Hp|]. split; [exact Hn|]. split; [apply (UO _ _ _ Hm PN); discriminate|exact Hc].
    + assert (PN : pc m <> PNone) by congruence. split; [rewrite (UI _ _ _ Hm PN); exact Hi|]. split; [exact Hp|]. split; [exact Hn|]. split; [apply (UO _ _ _ Hm PN); cbn [tsk pc]; intros T0; try reflexivity; exfalso; refine (TN _ _ Hm PN _ T0); congruence|exact Hc].
    + assert (PN : pc m <> PNone) by congruence. split; [rewrite (UI _ _ _ Hm PN); exact Hi|]. split; [exact Hp|]. split; [exact Hn|]. split; [apply (UO _ _ _ Hm PN); cbn [tsk pc]; intros T0; try reflexivity; exfalso; refine (TN _ _ Hm PN _ T0); congruence|exact Hc].
    + assert (PN : pc m <> PNone) by congruence. split; [rewrite (UI _ _ _ Hm PN); exact Hi|]. split; [exact Hp|]. split; [exact Hn|]. split; [apply (UO _ _ _ Hm PN); cbn [tsk pc]; intros T0; try reflexivity; exfalso; refine (TN _ _ Hm PN _ T0); congruence|exact Hc].
    + assert (PN : pc m <> PNone) by congruence. split; [rewrite (UI _ _ _ Hm PN); exact Hi|]. split; [exact Hp|]. split; [exact Hn|]. split; [apply (UO _ _ _ Hm PN); cbn [tsk pc]; intros T0; try reflexivity; exfalso; refine (TN _ _ Hm PN _ T0); congruence|exact Hc].
    + rewrite WK. auto.
    + assert (PN : pc m <> PNone) by congruence. split; [rewrite (UI _ _ _ Hm PN); exact Hi|]. split; [exact Hp|]. split; [exact Hn|]. split; [apply (UO _ _ _ Hm PN); cbn [tsk pc]; intros T0; try reflexivity; exfalso; refine (TN _ _ Hm PN _ T0); congruence|exact Hc].
  - destruct H as [s i0 m Hm P|s k j0 Hk|s r Hr]; unfold orphan; prj.
    + assert (PN : pc m <> PNone) by congruence. split; [rewrite (UI _ _ _ Hm PN); exact Hi|]. split; [exact Hp|]. split; [exact Hn|]. split; [apply (UO _ _ _ Hm PN); cbn [tsk wake_member]; intros T0; exfalso; refine (TN _ _ Hm PN _ T0); congruence|exact Hc].
    + pose proof (NP _ _ Hk) as N0. split; [exact Hi|]. split; [pose proof (sumf_upd (pend j) _ _ _ (ETry j0) Hk) as U; cbn [pend] in *; lia|]. auto.
    + auto.
Qed.
(** If a thread cannot be created, Enqueue still returns and counts the job, but the job is never run, whatever happens later. *)
Theorem C29_create_failure_refuted n s s' : reach n s -> create_failure s s' ->
  exists j, In (Called j) (hist s) /\ forall s'', steps s' s'' -> times (Start j) (hist s'') = 0.
Proof.
  intros R F. pose proof (reach_inv n s R) as I. destruct F as [s k j i m Hk F Hm A]. exists j.
  assert (PJ : sumf (pend j) (calls s) >= 1) by (pose proof (sumf_in (pend j) _ _ (nth_error_In _ _ Hk)) as P; cbn [pend] in P; unfold eqn in P; rewrite Nat.eqb_refl in P; exact P).
  pose proof (iA s I j) as IA. pose proof (iB s I j) as IB. pose proof (iK s I j) as IK.
  assert (LN : j < next s) by (unfold ltn in IA; destruct (Nat.ltb_spec j (next s)); lia).
  assert (L1 : ltn j (next s) = 1) by (unfold ltn; destruct (Nat.ltb_spec j (next s)); lia).
  assert (MI : forall i0 m0, nth_error (members s) i0 = Some m0 -> minv m0) by apply I.
  assert (HZ : forall m0, In m0 (members s) -> hold j m0 = 0) by (intros m0 H0; pose proof (sumf_in (hold j) _ _ H0); lia).
  split; [apply (count_occ_In ev_dec); unfold count in IK; lia|].
  assert (O : orphan i j (Crew (upd i (Mem true true (Some (Job j)) PNone) (members s)) (S (cntEnqueued s)) (cntCompleted s) (retired s) (upd k (ESig i j) (calls s)) (waiting s) (next s) (hist s))).
  { unfold orphan; prj. split; [eapply nth_upd_same; eauto|]. split; [pose proof (sumf_upd (pend j) _ _ _ (ESig i j) Hk) as U; cbn [pend] in U; unfold eqn in U; rewrite Nat.eqb_refl in U; lia|]. split; [exact LN|].
    assert (RZ : sumf (runs j) (members s) = 0).
    { apply sumf_zero. intros x Hx. pose proof (HZ x Hx) as HX. apply In_nth_error in Hx. destruct Hx as [i0 Hx]. pose proof (MI i0 x Hx) as MX. unfold minv, runs, hold in *. destruct (pc x); try reflexivity. destruct MX as (_ & _ & T). rewrite T in HX. exact HX. }
    assert (CF : cntEnqueued s = cntCompleted s + sumf act (members s)) by apply I.
    split; [|lia]. intros k' m' N Hk'. apply nth_upd_inv in Hk'. destruct Hk' as [[-> _]|[_ Hk']]; [congruence|].
    pose proof (HZ m' (nth_error_In _ _ Hk')) as HX. pose proof (MI _ _ Hk') as MX. intros T. unfold minv, hold in *. rewrite T in *. destruct (pc m'); unfold eqn in HX; try rewrite Nat.eqb_refl in HX; try discriminate; try (destruct MX as (_ & _ & MX); discriminate); try contradiction. reflexivity. }
  intros s'' H. rewrite times_count. assert (IND : forall x y, steps x y -> orphan i j x -> orphan i j y) by (intros x y HX; induction HX as [x|x y z H1 IH H2]; intros LX; [exact LX|exact (orphan_step _ _ _ _ (IH LX) H2)]). apply (IND _ _ H O).
Qed.
Print Assumptions C29_create_failure_refuted.
(** The third job of three, the first two still waiting for their threads. *)
Example C29_create_failure_case : exists s s', reach 3 s /\ create_failure s s' /\ In (Called 2) (hist s).
Proof.
  pose proof (r_init 3) as R. cbn in R.
  go R (c_enqueue (crew_init 3) eq_refl).
  match type of R with reach _ ?s => go R (w_place s 0 0 0 _ eq_refl eq_refl eq_refl) end.
  match type of R with reach _ ?s => go R (w_signal s 0 0 0 _ eq_refl eq_refl) end.
  match type of R with reach _ ?s => go R (c_enqueue s eq_refl) end.
  match type of R with reach _ ?s => go R (w_place s 0 1 1 _ eq_refl eq_refl eq_refl) end.
  match type of R with reach _ ?s => go R (w_signal s 0 1 1 _ eq_refl eq_refl) end.
  match type of R with reach _ ?s => go R (c_enqueue s eq_refl) end.
  match type of R with reach _ ?s => pose proof (f_place s 0 2 2 _ eq_refl eq_refl eq_refl eq_refl) as F end.
  eexists. eexists. split; [exact R|]. split; [exact F|]. cbn. tauto.
Qed.
