(** The crew's invariant over every history of calls and every schedule. *)
From Coq Require Import List Arith Lia Bool.
From Verif Require Import Base TCrew.
Import ListNotations.
Local Open Scope nat_scope.

Definition sumf {A} (f : A -> nat) (l : list A) : nat := fold_right (fun a n => f a + n) 0 l.
Lemma sumf_cons {A} (f : A -> nat) a l : sumf f (a :: l) = f a + sumf f l.
Proof. reflexivity. Qed.
Lemma sumf_upd {A} (f : A -> nat) l : forall i a b, nth_error l i = Some a -> sumf f (upd i b l) + f a = sumf f l + f b.
Proof.
  induction l as [|x l IH]; intros [|i] a b H; cbn [nth_error] in H; try discriminate; cbn [upd]; rewrite !sumf_cons.
  - injection H as <-. lia.
  - specialize (IH i a b H). lia.
Qed.
Lemma sumf_app {A} (f : A -> nat) l1 l2 : sumf f (l1 ++ l2) = sumf f l1 + sumf f l2.
Proof. induction l1 as [|x l IH]; [reflexivity|]. cbn [app]. rewrite !sumf_cons. lia. Qed.
Lemma sumf_remove {A} (f : A -> nat) l : forall k a, nth_error l k = Some a -> sumf f (remove_nth k l) + f a = sumf f l.
Proof.
  unfold remove_nth. induction l as [|x l IH]; intros [|k] a H; cbn [nth_error] in H; try discriminate.
  - injection H as <-. cbn [firstn app]. change (skipn 1 (x :: l)) with l. rewrite sumf_cons. lia.
  - specialize (IH k a H). cbn [firstn app]. change (skipn (S (S k)) (x :: l)) with (skipn (S k) l). rewrite !sumf_cons. lia.
Qed.
Lemma sumf_map {A} (f : A -> nat) (g : A -> A) l : (forall a, f (g a) = f a) -> sumf f (map g l) = sumf f l.
Proof. intros H. induction l as [|x l IH]; [reflexivity|]. cbn [map]. rewrite !sumf_cons, H. lia. Qed.
Lemma sumf_in {A} (f : A -> nat) l a : In a l -> f a <= sumf f l.
Proof. induction l as [|x l IH]; intros H; [destruct H|]. rewrite sumf_cons. destruct H as [->|H]; [lia|]. specialize (IH H). lia. Qed.
Lemma sumf_zero {A} (f : A -> nat) l : (forall a, In a l -> f a = 0) -> sumf f l = 0.
Proof. induction l as [|x l IH]; intros H; [reflexivity|]. rewrite sumf_cons. rewrite H by now left. apply IH. intros a Ha. apply H. now right. Qed.
Lemma nth_error_upd {A} (l : list A) : forall i j v, nth_error (upd i v l) j = if Nat.eqb i j then (if j <? length l then Some v else None) else nth_error l j.
Proof.
  induction l as [|x l IH]; intros [|i] [|j] v; cbn [upd nth_error Nat.eqb length]; try reflexivity.
  - destruct (Nat.eqb i j); reflexivity.
  - rewrite IH. destruct (Nat.eqb i j); reflexivity.
Qed.
Lemma in_upd {A} (l : list A) i v x : In x (upd i v l) -> x = v \/ In x l.
Proof. revert i. induction l as [|y l IH]; intros [|i] H; cbn [upd] in H; auto. - destruct H as [<-|H]; [now left|right; now right]. - destruct H as [<-|H]; [right; now left|]. destruct (IH i H); [now left|right; now right]. Qed.
Lemma in_upd_self {A} (l : list A) i v a : nth_error l i = Some a -> In v (upd i v l).
Proof. revert i. induction l as [|y l IH]; intros [|i] H; cbn [nth_error] in H; try discriminate; cbn [upd]; [now left|right; eauto]. Qed.
Lemma in_upd_other {A} (l : list A) i v a x : nth_error l i = Some a -> In x l -> x <> a -> In x (upd i v l).
Proof. revert i. induction l as [|y l IH]; intros [|i] H Hx N; cbn [nth_error] in H; try discriminate; cbn [upd]. - injection H as ->. destruct Hx as [->|Hx]; [congruence|now right]. - destruct Hx as [->|Hx]; [now left|right; eauto]. Qed.
Lemma in_remove {A} (l : list A) k x : In x (remove_nth k l) -> In x l.
Proof. unfold remove_nth. intros H. rewrite <- (firstn_skipn k l). apply in_app_or in H. apply in_or_app. destruct H as [H|H]; [now left|right]. destruct (skipn k l) as [|y r] eqn:E.
  - assert (skipn (S k) l = []) as E2. { apply skipn_all2. assert (length (skipn k l) = 0) by now rewrite E. rewrite skipn_length in H0. lia. } rewrite E2 in H. destruct H.
  - right. assert (skipn (S k) l = r) as E2. { clear H. revert l E. induction k; intros l E; [cbn in *; subst; reflexivity|]. destruct l; [discriminate|]. apply (IHk l E). } rewrite E2 in H. exact H. Qed.
Lemma in_remove_other {A} (l : list A) k a x : nth_error l k = Some a -> In x l -> x <> a -> In x (remove_nth k l).
Proof.
  unfold remove_nth. revert k. induction l as [|y l IH]; intros [|k] H Hx N; cbn [nth_error] in H; try discriminate.
  - injection H as ->. destruct Hx as [->|Hx]; [congruence|exact Hx].
  - cbn [firstn app]. change (skipn (S (S k)) (y :: l)) with (skipn (S k) l). destruct Hx as [->|Hx]; [now left|right; eauto].
Qed.
Lemma first_free_some l : forall i0 i, first_free l i0 = Some i -> i0 <= i /\ exists m, nth_error l (i - i0) = Some m /\ busy m = false.
Proof.
  induction l as [|m l IH]; intros i0 i H; cbn [first_free] in H; [discriminate|]. destruct (busy m) eqn:E.
  - apply IH in H. destruct H as [Hi (m' & Hm & Hb)]. split; [lia|]. exists m'. replace (i - i0) with (S (i - S i0)) by lia. auto.
  - injection H as <-. split; [lia|]. exists m. rewrite Nat.sub_diag. auto.
Qed.
Lemma first_free_none l : forall i0, first_free l i0 = None -> Forall (fun m => busy m = true) l.
Proof. induction l as [|m l IH]; intros i0 H; cbn [first_free] in H; [constructor|]. destruct (busy m) eqn:E; [|discriminate]. constructor; eauto. Qed.

(* ---- counting ---- *)
Definition eqn (a b : nat) : nat := if Nat.eqb a b then 1 else 0.
Definition hold (j : nat) (m : member) : nat := match tsk m, pc m with Some (Job j'), (PTop | PSleep | PExec | PRun _) => eqn j j' | _, _ => 0 end.
Definition runs (j : nat) (m : member) : nat := match pc m with PRun j' => eqn j j' | _ => 0 end.
Definition act (m : member) : nat := match pc m with PCount => 1 | _ => match tsk m with Some _ => 1 | None => 0 end end.
Definition pend (j : nat) (c : call) : nat := match c with ETry j' | ESleep j' => eqn j j' | ESig _ _ => 0 end.
Definition cjob (j : nat) (c : call) : nat := match c with ETry j' | ESleep j' | ESig _ j' => eqn j j' end.
Definition isig (c : call) : nat := match c with ESig _ _ => 1 | _ => 0 end.
Definition ev_dec : forall a b : event, {a = b} + {a <> b}. Proof. decide equality; apply Nat.eq_dec. Defined.
Definition count (e : event) (h : list event) : nat := count_occ ev_dec h e.
Lemma count_snoc e h e' : count e (h ++ [e']) = count e h + if ev_dec e' e then 1 else 0.
Proof. unfold count. rewrite count_occ_app. cbn. destruct (ev_dec e' e); lia. Qed.
(** jobs whose Enqueue returned after the last callback *)
Definition since (h : list event) : nat := fold_left (fun n e => match e with Enqueued _ => S n | Callback _ => 0 | _ => n end) h 0.
Lemma since_snoc h e : since (h ++ [e]) = match e with Enqueued _ => S (since h) | Callback _ => 0 | _ => since h end.
Proof. unfold since. rewrite fold_left_app. reflexivity. Qed.
Definition minv (m : member) : Prop :=
  match pc m with
  | PNone => busy m = false /\ alive m = false /\ tsk m = None
  | PSleep => alive m = true /\ tsk m <> Some ThreadExit /\ (busy m = true <-> tsk m <> None)
  | PTop => alive m = true /\ tsk m <> Some ThreadExit /\ (tsk m <> None -> busy m = true)
  | PRun j => busy m = true /\ alive m = true /\ tsk m = Some (Job j)
  | PExec | PClear => busy m = true /\ alive m = true /\ exists j, tsk m = Some (Job j)
  | PCount | PStat | PRetire => busy m = true /\ alive m = true /\ tsk m = None
  | PEnded => False
  end.
Definition will_bcast (m : member) : bool := match pc m with PStat | PRetire => true | PTop => match tsk m with None => true | _ => false end | _ => false end.
Definition ltn (j n : nat) : nat := if j <? n then 1 else 0.
Definition cb_ok (h : list event) : Prop := forall h1 n h2, h = h1 ++ Callback n :: h2 ->
  n = since h1 /\ forall j, In (Enqueued j) h1 -> count (Start j) h1 = 1 /\ count (Finish j) h1 = 1.
Record inv (s : crew) : Prop := {
  iA : forall j, sumf (pend j) (calls s) + sumf (hold j) (members s) + count (Finish j) (hist s) = ltn j (next s);
  iB : forall j, count (Start j) (hist s) = count (Finish j) (hist s) + sumf (runs j) (members s);
  iC : cntEnqueued s = cntCompleted s + sumf act (members s);
  iD : cntEnqueued s = sumf isig (calls s) + since (hist s);
  iE : forall j, sumf (cjob j) (calls s) + count (Enqueued j) (hist s) = ltn j (next s);
  iK : forall j, count (Called j) (hist s) = ltn j (next s);
  iW : waiting s <> None -> calls s = [];
  iR : forall r, waiting s = Some (WTry r) \/ waiting s = Some (WSleep r) -> r = cntEnqueued s;
  iM : forall i m, nth_error (members s) i = Some m -> minv m;
  iS : forall i m, nth_error (members s) i = Some m -> pc m = PSleep -> tsk m <> None -> exists j, In (ESig i j) (calls s);
  iN : forall j, In (ESleep j) (calls s) -> (forall i m, nth_error (members s) i = Some m -> busy m = true) \/ 0 < retired s;
  iX : forall r, waiting s = Some (WSleep r) -> cntCompleted s < r \/ 0 < retired s \/ exists i m, nth_error (members s) i = Some m /\ will_bcast m = true;
  iG : forall i j, In (ESig i j) (calls s) -> i < length (members s);
  iH : cb_ok (hist s) }.
Lemma cb_ok_snoc h e : cb_ok h -> (forall n, e = Callback n -> n = since h /\ forall j, In (Enqueued j) h -> count (Start j) h = 1 /\ count (Finish j) h = 1) -> cb_ok (h ++ [e]).
Proof.
  intros H He h1 n h2 E. destruct h2 as [|x h2] using rev_ind.
  - apply app_inj_tail in E. destruct E as [-> ->]. now apply He.
  - clear IHh2. rewrite app_comm_cons, app_assoc in E. apply app_inj_tail in E. destruct E as [-> _]. eapply H. reflexivity.
Qed.
Lemma init_inv n : inv (crew_init n).
Proof.
  assert (MI : forall i m, nth_error (map m_init (seq 0 n)) i = Some m -> m = m_init i).
  { intros i m H. rewrite nth_error_map in H. destruct (nth_error (seq 0 n) i) eqn:E; [|discriminate]. cbn in H. injection H as <-.
    assert (i < length (seq 0 n)) by (apply nth_error_Some; congruence). rewrite (nth_error_nth' _ 0) in E by assumption. rewrite seq_length in *. rewrite seq_nth in E by assumption. injection E as <-. reflexivity. }
  assert (Z : forall f, (forall i, f (m_init i) = 0) -> sumf f (map m_init (seq 0 n)) = 0).
  { intros f Hf. apply sumf_zero. intros a Ha. apply in_map_iff in Ha. destruct Ha as [i [<- _]]. apply Hf. }
  assert (C : forall i, tsk (m_init i) = None /\ (pc (m_init i) = PTop \/ pc (m_init i) = PNone)) by (intros i; unfold m_init; destruct (i <? 2); auto).
  constructor; cbn [crew_init calls members hist next cntEnqueued cntCompleted waiting retired]; try discriminate; try (intros; contradiction).
  - intros j. rewrite Z; [reflexivity|]. intros i. unfold hold. destruct (C i) as [-> _]. reflexivity.
  - intros j. rewrite Z; [reflexivity|]. intros i. unfold runs. destruct (C i) as [_ [-> | ->]]; reflexivity.
  - rewrite Z; [reflexivity|]. intros i. unfold act. destruct (C i) as [-> [-> | ->]]; reflexivity.
  - reflexivity.
  - reflexivity.
  - reflexivity.
  - intros r [|]; discriminate.
  - intros i m H. apply MI in H. subst m. unfold m_init. destruct (i <? 2); unfold minv; cbn; (split; [reflexivity|]); (split; [reflexivity || discriminate|]); auto.
  - intros i m H P _. apply MI in H. subst m. destruct (C i) as [_ [E|E]]; congruence.
  - intros h1 k h2 E. destruct h1; discriminate.
Qed.
Lemma nth_upd_inv {A} (l : list A) i v k x : nth_error (upd i v l) k = Some x -> (k = i /\ x = v) \/ (k <> i /\ nth_error l k = Some x).
Proof. intros H. rewrite nth_error_upd in H. destruct (Nat.eqb_spec i k) as [->|N]; [|right; split; [auto|exact H]]. destruct (k <? length l); [|discriminate]. injection H as ->. now left. Qed.
Lemma nth_upd_same {A} (l : list A) i v a : nth_error l i = Some a -> nth_error (upd i v l) i = Some v.
Proof. intros H. rewrite nth_error_upd, Nat.eqb_refl. assert (i < length l) by (apply nth_error_Some; congruence). destruct (Nat.ltb_spec i (length l)); [reflexivity|lia]. Qed.
Lemma nth_upd_other {A} (l : list A) i v k : k <> i -> nth_error (upd i v l) k = nth_error l k.
Proof. intros H. rewrite nth_error_upd. destruct (Nat.eqb_spec i k); [congruence|reflexivity]. Qed.

Lemma member_step s i m m' comp' h' : inv s -> nth_error (members s) i = Some m -> minv m' ->
  (forall j, hold j m' + count (Finish j) h' = hold j m + count (Finish j) (hist s)) ->
  (forall j, count (Start j) h' + count (Finish j) (hist s) + runs j m = count (Start j) (hist s) + count (Finish j) h' + runs j m') ->
  comp' + act m' = cntCompleted s + act m -> since h' = since (hist s) ->
  (forall j, count (Enqueued j) h' = count (Enqueued j) (hist s)) -> (forall j, count (Called j) h' = count (Called j) (hist s)) -> cb_ok h' ->
  (busy m = true -> busy m' = true) -> pc m' <> PSleep -> (will_bcast m = true -> will_bcast m' = true) -> (comp' = cntCompleted s \/ will_bcast m' = true) ->
  inv (Crew (upd i m' (members s)) (cntEnqueued s) comp' (retired s) (calls s) (waiting s) (next s) h').
Proof.
  intros I Hm M' HF HS HC Hsi HE HK Hcb Hb Hp Hw Hc.
  constructor; cbn [calls members hist next cntEnqueued cntCompleted waiting retired].
  - intros j. pose proof (iA s I j). pose proof (sumf_upd (hold j) _ _ _ m' Hm). specialize (HF j). lia.
  - intros j. pose proof (iB s I j). pose proof (sumf_upd (runs j) _ _ _ m' Hm). specialize (HS j). lia.
  - pose proof (iC s I). pose proof (sumf_upd act _ _ _ m' Hm). lia.
  - pose proof (iD s I). lia.
  - intros j. rewrite HE. apply I.
  - intros j. rewrite HK. apply I.
  - apply I.
  - apply I.
  - intros k x H. apply nth_upd_inv in H. destruct H as [[-> ->]|[_ H]]; [exact M'|eapply iM; eauto].
  - intros k x H P T. apply nth_upd_inv in H. destruct H as [[-> ->]|[_ H]]; [contradiction|eapply iS; eauto].
  - intros j Hj. destruct (iN s I j Hj) as [A|A]; [left|now right]. intros k x H. apply nth_upd_inv in H. destruct H as [[-> ->]|[_ H]]; eauto.
  - intros r Hr. destruct Hc as [-> | Hc]; [|right; right; exists i, m'; split; [eapply nth_upd_same; eauto|exact Hc]].
    destruct (iX s I r Hr) as [A|[A|(k & x & A & B)]]; [now left|right; now left|right; right].
    destruct (Nat.eq_dec k i) as [->|N]; [exists i, m'; split; [eapply nth_upd_same; eauto|apply Hw; congruence]|exists k, x; rewrite nth_upd_other by exact N; auto].
  - intros k j Hk. rewrite upd_length. exact (iG s I _ _ ltac:(eassumption)).
  - exact Hcb.
Qed.
(** broadcasting keeps everything *)
Lemma wake_call_pend j c : pend j (wake_call c) = pend j c. Proof. destruct c; reflexivity. Qed.
Lemma wake_call_cjob j c : cjob j (wake_call c) = cjob j c. Proof. destruct c; reflexivity. Qed.
Lemma wake_call_isig c : isig (wake_call c) = isig c. Proof. destruct c; reflexivity. Qed.
Lemma in_wake_sig l i j : In (ESig i j) (map wake_call l) <-> In (ESig i j) l.
Proof. rewrite in_map_iff. split; [intros (c & E & H)|intros H; exists (ESig i j); auto]. destruct c; cbn in E; try discriminate. congruence. Qed.
Lemma in_wake_sleep l j : ~ In (ESleep j) (map wake_call l).
Proof. rewrite in_map_iff. intros (c & E & H). destruct c; discriminate. Qed.
(** the invariant without its two wake-up clauses *)
Record inv0 (s : crew) : Prop := {
  jA : forall j, sumf (pend j) (calls s) + sumf (hold j) (members s) + count (Finish j) (hist s) = ltn j (next s);
  jB : forall j, count (Start j) (hist s) = count (Finish j) (hist s) + sumf (runs j) (members s);
  jC : cntEnqueued s = cntCompleted s + sumf act (members s);
  jD : cntEnqueued s = sumf isig (calls s) + since (hist s);
  jE : forall j, sumf (cjob j) (calls s) + count (Enqueued j) (hist s) = ltn j (next s);
  jK : forall j, count (Called j) (hist s) = ltn j (next s);
  jW : waiting s <> None -> calls s = [];
  jR : forall r, waiting s = Some (WTry r) \/ waiting s = Some (WSleep r) -> r = cntEnqueued s;
  jM : forall i m, nth_error (members s) i = Some m -> minv m;
  jS : forall i m, nth_error (members s) i = Some m -> pc m = PSleep -> tsk m <> None -> exists j, In (ESig i j) (calls s);
  jG : forall i j, In (ESig i j) (calls s) -> i < length (members s);
  jH : cb_ok (hist s) }.
Lemma inv_inv0 s : inv s -> inv0 s.
Proof. intros I. constructor; apply I. Qed.
Lemma inv0_wake s : inv0 s -> (forall j, In (ESleep j) (calls s) -> (forall i m, nth_error (members s) i = Some m -> busy m = true) \/ 0 < retired s) ->
  (forall r, waiting s = Some (WSleep r) -> cntCompleted s < r \/ 0 < retired s \/ exists i m, nth_error (members s) i = Some m /\ will_bcast m = true) -> inv s.
Proof. intros I N X. constructor; try apply I; assumption. Qed.
Lemma bcast_inv s : inv0 s -> inv (broadcast s).
Proof.
  intros I. constructor; cbn [broadcast calls members hist next cntEnqueued cntCompleted waiting retired].
  - intros j. rewrite sumf_map by apply wake_call_pend. apply I.
  - apply I.
  - apply I.
  - rewrite sumf_map by apply wake_call_isig. apply I.
  - intros j. rewrite sumf_map by apply wake_call_cjob. apply I.
  - apply I.
  - intros H. rewrite jW; [reflexivity|exact I|]. destruct (waiting s) as [[]|]; cbn in *; congruence.
  - intros r H. apply (jR s I). destruct (waiting s) as [[]|]; cbn in *; destruct H as [H|H]; try discriminate; injection H as ->; auto.
  - apply I.
  - intros i m H P T. destruct (jS s I i m H P T) as [j Hj]. exists j. now apply in_wake_sig.
  - intros j H. now apply in_wake_sleep in H.
  - intros r H. destruct (waiting s) as [[]|]; discriminate.
  - intros i j H. apply (proj1 (in_wake_sig _ _ _)) in H. exact (jG s I i j H).
  - apply I.
Qed.
Ltac prj := cbn [set_members set_calls set_waiting set_retired log broadcast calls members hist next cntEnqueued cntCompleted waiting retired wake_member assign busy alive tsk pc].
Lemma count_other h e e' : e' <> e -> count e (h ++ [e']) = count e h.
Proof. intros N. rewrite count_snoc. destruct (ev_dec e' e); [contradiction|lia]. Qed.
Lemma count_Start h j j' : count (Start j) (h ++ [Start j']) = count (Start j) h + eqn j j'.
Proof. rewrite count_snoc. unfold eqn. destruct (ev_dec (Start j') (Start j)), (Nat.eqb_spec j j'); congruence || lia. Qed.
Lemma count_Finish h j j' : count (Finish j) (h ++ [Finish j']) = count (Finish j) h + eqn j j'.
Proof. rewrite count_snoc. unfold eqn. destruct (ev_dec (Finish j') (Finish j)), (Nat.eqb_spec j j'); congruence || lia. Qed.
Lemma count_Enq h j j' : count (Enqueued j) (h ++ [Enqueued j']) = count (Enqueued j) h + eqn j j'.
Proof. rewrite count_snoc. unfold eqn. destruct (ev_dec (Enqueued j') (Enqueued j)), (Nat.eqb_spec j j'); congruence || lia. Qed.
Lemma count_Called h j j' : count (Called j) (h ++ [Called j']) = count (Called j) h + eqn j j'.
Proof. rewrite count_snoc. unfold eqn. destruct (ev_dec (Called j') (Called j)), (Nat.eqb_spec j j'); congruence || lia. Qed.
Lemma wake_inv s i m : inv s -> nth_error (members s) i = Some m -> inv (set_members s (upd i (wake_member m) (members s))).
Proof.
  intros I Hm. pose proof (iM s I i m Hm) as MI. unfold minv in MI. destruct m as [b a t p]. unfold wake_member. cbn [busy alive tsk pc] in *.
  apply (member_step s i (Mem b a t p)); auto; try (destruct p; reflexivity || discriminate).
  - unfold minv; cbn [busy alive tsk pc]; destruct p; auto. destruct MI as (X & Y & Z). split; [auto|split; [auto|apply Z]].
  - apply I.
  - unfold will_bcast; cbn [tsk pc]; destruct p; auto; discriminate.
Qed.
Lemma step_inv s s' : inv s -> step s s' -> inv s'.
Proof.
  intros I [H|[H|H]].
  - destruct H as [s Hw|s Hw Hc].
    + constructor; prj.
      * intros j. pose proof (iA s I j). rewrite sumf_app. cbn [sumf fold_right pend]. rewrite count_other by discriminate. unfold ltn, eqn in *. destruct (Nat.eqb_spec j (next s)), (Nat.ltb_spec j (next s)), (Nat.ltb_spec j (S (next s))); lia.
      * intros j. rewrite !count_other by discriminate. apply I.
      * apply I.
      * rewrite sumf_app. cbn [sumf fold_right isig]. rewrite since_snoc. pose proof (iD s I). lia.
      * intros j. pose proof (iE s I j). rewrite sumf_app. cbn [sumf fold_right cjob]. rewrite count_other by discriminate. unfold ltn, eqn in *. destruct (Nat.eqb_spec j (next s)), (Nat.ltb_spec j (next s)), (Nat.ltb_spec j (S (next s))); lia.
      * intros j. pose proof (iK s I j). rewrite count_Called. unfold ltn, eqn in *. destruct (Nat.eqb_spec j (next s)), (Nat.ltb_spec j (next s)), (Nat.ltb_spec j (S (next s))); lia.
      * congruence.
      * intros r [|]; discriminate.
      * apply I.
      * intros i m A B C. destruct (iS s I i m A B C) as [j Hj]. exists j. apply in_or_app. now left.
      * intros j Hj. apply in_app_or in Hj. destruct Hj as [Hj|[Hj|[]]]; [eapply iN; eauto|discriminate].
      * discriminate.
      * intros i j Hj. apply in_app_or in Hj. destruct Hj as [Hj|[Hj|[]]]; [exact (iG s I _ _ ltac:(eassumption))|discriminate].
      * apply cb_ok_snoc; [apply I|discriminate].
    + apply inv0_wake; [|prj; rewrite Hc; intros j []|prj; discriminate]. constructor; prj; try apply I; auto. intros r [|]; discriminate.
  - destruct H.
    + (* place *)
      pose proof (iM s I i m H1) as MI. apply first_free_some in H0. destruct H0 as [_ (m0 & Hm0 & Hb)]. rewrite Nat.sub_0_r in Hm0. assert (m0 = m) by congruence. subst m0.
      assert (TN : tsk m = None /\ (pc m = PNone \/ pc m = PSleep \/ pc m = PTop)).
      { unfold minv in MI. destruct (pc m); try (destruct MI as [MI _]; congruence); try contradiction.
        - tauto. - destruct MI as (_ & _ & MI). split; [|tauto]. destruct (tsk m); [|reflexivity]. rewrite MI in Hb; congruence.
        - destruct MI as (_ & _ & MI). split; [|tauto]. destruct (tsk m); [|reflexivity]. assert (Some t <> None) as N by discriminate. apply MI in N. congruence. }
      destruct TN as [TN PN].
      assert (WN : waiting s = None) by (destruct (waiting s) eqn:E; [|reflexivity]; assert (calls s = []) as CE by (apply I; congruence); rewrite CE in H; destruct k; discriminate).
      assert (PA : pc (assign (Job j) m) = PTop \/ pc (assign (Job j) m) = PSleep) by (unfold assign; cbn [pc]; unfold minv in MI; destruct (alive m) eqn:EA; [|now left]; destruct PN as [E|[E|E]]; rewrite E in MI; [destruct MI as (_ & ? & _); congruence|now right|now left]).
      constructor; prj.
      * intros j'. pose proof (iA s I j'). pose proof (sumf_upd (pend j') _ _ _ (ESig i j) H). pose proof (sumf_upd (hold j') _ _ _ (assign (Job j) m) H1).
        assert (hold j' (assign (Job j) m) = eqn j' j) by (unfold hold; destruct PA as [-> | ->]; reflexivity). assert (hold j' m = 0) by (unfold hold; rewrite TN; reflexivity). cbn [pend] in *. lia.
      * intros j'. pose proof (iB s I j'). pose proof (sumf_upd (runs j') _ _ _ (assign (Job j) m) H1).
        assert (runs j' (assign (Job j) m) = 0) by (unfold runs; destruct PA as [-> | ->]; reflexivity). assert (runs j' m = 0) by (unfold runs; destruct PN as [-> |[-> | ->]]; reflexivity). lia.
      * pose proof (iC s I). pose proof (sumf_upd act _ _ _ (assign (Job j) m) H1). assert (act (assign (Job j) m) = 1) by (unfold act; destruct PA as [-> | ->]; reflexivity).
        assert (act m = 0) by (unfold act; rewrite TN; destruct PN as [-> |[-> | ->]]; reflexivity). lia.
      * pose proof (iD s I). pose proof (sumf_upd isig _ _ _ (ESig i j) H). cbn [isig] in *. lia.
      * intros j'. pose proof (iE s I j'). pose proof (sumf_upd (cjob j') _ _ _ (ESig i j) H). cbn [cjob] in *. lia.
      * apply I.
      * congruence.
      * intros r. rewrite WN. intros [|]; discriminate.
      * intros k' x Hx. apply nth_upd_inv in Hx. destruct Hx as [[-> ->]|[_ Hx]]; [|eapply iM; eauto]. unfold minv. destruct PA as [-> | ->]; unfold assign; cbn [alive busy tsk]; (split; [reflexivity|split; [discriminate|]]); [auto|split; [discriminate|auto]].
      * intros k' x Hx P T. apply nth_upd_inv in Hx. destruct Hx as [[-> ->]|[_ Hx]]; [exists j; eapply in_upd_self; eauto|]. destruct (iS s I k' x Hx P T) as [j' Hj']. exists j'. eapply in_upd_other; eauto. discriminate.
      * intros j' Hj. apply in_upd in Hj. destruct Hj as [Hj|Hj]; [discriminate|]. destruct (iN s I j' Hj) as [A|A]; [|now right]. apply A in H1. congruence.
      * congruence.
      * intros k' j' Hj. rewrite upd_length. apply in_upd in Hj. destruct Hj as [Hj|Hj]; [injection Hj as -> ->; apply nth_error_Some; congruence|exact (iG s I _ _ ltac:(eassumption))].
      * apply I.
    + (* full *)
      apply first_free_none in H0. apply inv0_wake.
      * constructor; prj; try apply I.
        -- intros j'. pose proof (iA s I j'). pose proof (sumf_upd (pend j') _ _ _ (ESleep j) H). cbn [pend] in *. lia.
        -- pose proof (iD s I). pose proof (sumf_upd isig _ _ _ (ESleep j) H). cbn [isig] in *. lia.
        -- intros j'. pose proof (iE s I j'). pose proof (sumf_upd (cjob j') _ _ _ (ESleep j) H). cbn [cjob] in *. lia.
        -- intros W. rewrite (iW s I W) in H. destruct k; discriminate.
        -- intros i m A B C. destruct (iS s I i m A B C) as [j' Hj']. exists j'. eapply in_upd_other; eauto. discriminate.
        -- intros i j' Hj. apply in_upd in Hj. destruct Hj as [Hj|Hj]; [discriminate|exact (iG s I _ _ ltac:(eassumption))].
      * prj. intros j' _. left. intros i m Hm. rewrite Forall_forall in H0. apply H0. eapply nth_error_In; eauto.
      * prj. apply I.
    + (* signal *)
      pose proof (wake_inv s i m I H0) as I1. clear I. revert I1. set (s1 := set_members s _). intros I.
      assert (WN : waiting s = None) by (destruct (waiting s) eqn:E; [|reflexivity]; assert (calls s = []) as CE by (apply (iW s1 I); unfold s1; prj; congruence); rewrite CE in H; destruct k; discriminate).
      change (calls s) with (calls s1) in *. change (waiting s) with (waiting s1) in *.
      assert (PW : pc (wake_member m) <> PSleep) by (unfold wake_member; cbn [pc]; destruct (pc m); discriminate).
      assert (ES : forall k' x, nth_error (members s1) k' = Some x -> pc x = PSleep -> k' <> i).
      { intros k' x Hx P ->. unfold s1 in Hx. cbn [members set_members] in Hx. rewrite (nth_upd_same _ _ _ _ H0) in Hx. injection Hx as <-. contradiction. }
      clear H0. change (log (set_members (set_calls s (remove_nth k (calls s1))) (upd i (wake_member m) (members s))) (Enqueued j)) with (log (set_calls s1 (remove_nth k (calls s1))) (Enqueued j)).
      clearbody s1. constructor; prj.
      * intros j'. pose proof (iA s1 I j'). pose proof (sumf_remove (pend j') _ _ _ H). cbn [pend] in *. rewrite count_other by discriminate. lia.
      * intros j'. rewrite !count_other by discriminate. apply I.
      * apply I.
      * pose proof (iD s1 I). pose proof (sumf_remove isig _ _ _ H). rewrite since_snoc. cbn [isig] in *. lia.
      * intros j'. pose proof (iE s1 I j'). pose proof (sumf_remove (cjob j') _ _ _ H). rewrite count_Enq. cbn [cjob] in *. lia.
      * intros j'. rewrite count_other by discriminate. apply I.
      * congruence.
      * intros r. rewrite WN. intros [|]; discriminate.
      * apply I.
      * intros k' x Hx P T. destruct (iS s1 I k' x Hx P T) as [j' Hj']. exists j'. eapply in_remove_other; eauto. intros E. injection E as -> ->. exact (ES _ _ Hx P eq_refl).
      * intros j' Hj. apply in_remove in Hj. eapply iN; eauto.
      * rewrite WN. discriminate.
      * intros k' j' Hj. apply in_remove in Hj. exact (iG s1 I _ _ ltac:(eassumption)).
      * apply cb_ok_snoc; [apply I|discriminate].
    + (* snapshot *)
      assert (CE : calls s = []) by (apply I; congruence). apply inv0_wake; [|prj; rewrite CE; intros j []|prj; discriminate]. constructor; prj; try apply I; auto. intros r [E|E]; [injection E as <-; reflexivity|discriminate].
    + (* block *)
      assert (CE : calls s = []) by (apply I; congruence). apply inv0_wake; [|prj; rewrite CE; intros j []|prj; intros r' E; injection E as <-; now left]. constructor; prj; try apply I; auto. intros r' [E|E]; [discriminate|injection E as <-; apply (iR s I); auto].
    + (* callback *)
      assert (CE : calls s = []) by (apply I; congruence). pose proof (iR s I r (or_introl H)) as RE. pose proof (iC s I) as C. pose proof (iD s I) as D. rewrite CE in D. cbn [sumf fold_right] in D.
      assert (AZ : sumf act (members s) = 0) by lia.
      constructor; prj; rewrite ?CE; try (intros; contradiction); try discriminate.
      * intros j. rewrite count_other by discriminate. rewrite <- CE. apply I.
      * intros j. rewrite !count_other by discriminate. apply I.
      * lia.
      * rewrite since_snoc. cbn [sumf fold_right]. lia.
      * intros j. rewrite count_other by discriminate. rewrite <- CE. apply I.
      * intros j. rewrite count_other by discriminate. apply I.
      * intros r' [|]; discriminate.
      * apply I.
      * intros i m A B T. destruct (iS s I i m A B T) as [j Hj]. rewrite CE in Hj. destruct Hj.
      * apply cb_ok_snoc; [apply I|]. intros n E. injection E as <-. split; [lia|]. intros j Hj.
        assert (CJ : count (Enqueued j) (hist s) >= 1) by (unfold count; apply count_occ_In; exact Hj). pose proof (iE s I j) as E. pose proof (iA s I j) as A. pose proof (iB s I j) as B. rewrite CE in *. cbn [sumf fold_right] in *.
        assert (HZ : sumf (hold j) (members s) = 0).
        { apply sumf_zero. intros x Hx. assert (act x = 0) as AX by (pose proof (sumf_in act _ _ Hx); lia). unfold act in AX. unfold hold. destruct (tsk x); [destruct (pc x); discriminate|reflexivity]. }
        assert (RZ : sumf (runs j) (members s) = 0).
        { apply sumf_zero. intros x Hx. assert (act x = 0) as AX by (pose proof (sumf_in act _ _ Hx); lia). unfold act in AX. pose proof (In_nth_error _ _ Hx) as [i0 Hi0]. pose proof (iM s I i0 x Hi0) as MX. unfold runs, minv in *. destruct (pc x); try reflexivity. destruct MX as (_ & _ & TX). rewrite TX in AX. discriminate. }
        unfold ltn in *. destruct (j <? next s); lia.
    + (* idle *)
      pose proof (iM s I i m H) as MI. unfold minv in MI. rewrite H0 in MI. destruct m as [b a t p]. cbn [busy alive tsk pc] in *. subst t p. destruct MI as (-> & _ & _).
      apply bcast_inv. apply inv_inv0 in I. constructor; prj; try apply I.
      * intros j. pose proof (jA s I j). pose proof (sumf_upd (hold j) _ _ _ (Mem false true None PSleep) H). cbn [hold tsk pc] in *. unfold hold in *. cbn in *. lia.
      * intros j. pose proof (jB s I j). pose proof (sumf_upd (runs j) _ _ _ (Mem false true None PSleep) H). unfold runs in *. cbn in *. lia.
      * pose proof (jC s I). pose proof (sumf_upd act _ _ _ (Mem false true None PSleep) H). unfold act in *. cbn in *. lia.
      * intros k x Hx. apply nth_upd_inv in Hx. destruct Hx as [[-> ->]|[_ Hx]]; [|eapply jM; eauto]. unfold minv; cbn. split; [reflexivity|split; [discriminate|split; [discriminate|congruence]]].
      * intros k x Hx P T. apply nth_upd_inv in Hx. destruct Hx as [[-> ->]|[_ Hx]]; [cbn in T; congruence|eapply jS; eauto].
      * intros k j Hk. rewrite upd_length. exact (jG s I _ _ ltac:(eassumption)).
    + (* take *)
      pose proof (iM s I i m H) as MI. unfold minv in MI. rewrite H0 in MI. destruct m as [b a t' p]. cbn [busy alive tsk pc] in *. subst t' p. destruct MI as (-> & NT & B).
      destruct t as [j|]; [|congruence]. rewrite B in * by discriminate.
      apply (member_step s i (Mem true true (Some (Job j)) PTop)); auto; try discriminate; try (apply I).
      unfold minv; cbn. eauto.
    + (* start *)
      pose proof (iM s I i m H) as MI. unfold minv in MI. rewrite H0 in MI. destruct m as [b a t' p]. cbn [busy alive tsk pc] in *. subst t' p. destruct MI as (-> & -> & _).
      apply (member_step s i (Mem true true (Some (Job j)) PExec)); prj; auto; try discriminate.
      * unfold minv; cbn. eauto.
      * intros j'. rewrite count_other by discriminate. unfold hold; cbn. lia.
      * intros j'. rewrite (count_other _ (Finish j')) by discriminate. rewrite count_Start. unfold runs; cbn. lia.
      * rewrite since_snoc. reflexivity.
      * intros j'. now rewrite count_other by discriminate.
      * intros j'. now rewrite count_other by discriminate.
      * apply cb_ok_snoc; [apply I|discriminate].
    + (* finish *)
      pose proof (iM s I i m H) as MI. unfold minv in MI. rewrite H0 in MI. destruct m as [b a t' p]. cbn [busy alive tsk pc] in *. subst p. destruct MI as (-> & -> & ->).
      apply (member_step s i (Mem true true (Some (Job j)) (PRun j))); prj; auto; try discriminate.
      * unfold minv; cbn. eauto.
      * intros j'. rewrite count_Finish. unfold hold; cbn. lia.
      * intros j'. rewrite (count_other _ (Start j')) by discriminate. rewrite count_Finish. unfold runs; cbn. lia.
      * rewrite since_snoc. reflexivity.
      * intros j'. now rewrite count_other by discriminate.
      * intros j'. now rewrite count_other by discriminate.
      * apply cb_ok_snoc; [apply I|discriminate].
    + (* clear *)
      pose proof (iM s I i m H) as MI. unfold minv in MI. rewrite H0 in MI. destruct m as [b a t' p]. cbn [busy alive tsk pc] in *. subst p. destruct MI as (-> & -> & j & ->).
      apply (member_step s i (Mem true true (Some (Job j)) PClear)); prj; auto; try discriminate; try (apply I). unfold minv; cbn. auto.
    + (* count *)
      pose proof (iM s I i m H) as MI. unfold minv in MI. rewrite H0 in MI. destruct m as [b a t' p]. cbn [busy alive tsk pc] in *. subst p. destruct MI as (-> & -> & ->).
      apply (member_step s i (Mem true true None PCount)); prj; auto; try discriminate; try (apply I). { unfold minv; cbn. auto. } unfold act; cbn. lia.
    + (* again *)
      pose proof (iM s I i m H) as MI. unfold minv in MI. rewrite H0 in MI. destruct m as [b a t' p]. cbn [busy alive tsk pc] in *. subst p. destruct MI as (-> & -> & ->).
      apply (member_step s i (Mem true true None PStat)); prj; auto; try discriminate; try (apply I). unfold minv; cbn. split; [auto|split; [discriminate|auto]].
    + (* relinquish *)
      pose proof (iM s I i m H) as MI. unfold minv in MI. rewrite H0 in MI. destruct m as [b a t' p]. cbn [busy alive tsk pc] in *. subst p. destruct MI as (-> & -> & ->).
      apply (member_step s i (Mem true true None PStat)); prj; auto; try discriminate; try (apply I). unfold minv; cbn. auto.
    + (* retire *)
      pose proof (iM s I i m H) as MI. unfold minv in MI. rewrite H0 in MI. destruct m as [b a t p]. cbn [busy alive tsk pc] in *. subst p. destruct MI as (-> & -> & ->).
      apply inv_inv0 in I. apply inv0_wake; [|prj; intros; right; lia|prj; intros; right; left; lia]. constructor; prj; try apply I.
      * intros j. pose proof (jA s I j). pose proof (sumf_upd (hold j) _ _ _ (Mem false false None PNone) H). unfold hold in *. cbn in *. lia.
      * intros j. pose proof (jB s I j). pose proof (sumf_upd (runs j) _ _ _ (Mem false false None PNone) H). unfold runs in *. cbn in *. lia.
      * pose proof (jC s I). pose proof (sumf_upd act _ _ _ (Mem false false None PNone) H). unfold act in *. cbn in *. lia.
      * intros k x Hx. apply nth_upd_inv in Hx. destruct Hx as [[-> ->]|[_ Hx]]; [|eapply jM; eauto]. unfold minv; cbn. auto.
      * intros k x Hx P T. apply nth_upd_inv in Hx. destruct Hx as [[-> ->]|[_ Hx]]; [cbn in T; congruence|eapply jS; eauto].
      * intros k j Hk. rewrite upd_length. exact (jG s I _ _ ltac:(eassumption)).
    + (* bye *)
      apply inv_inv0 in I. apply bcast_inv. constructor; prj; apply I.
    + (* exit *)
      pose proof (iM s I i m H) as MI. unfold minv in MI. rewrite H0 in MI. destruct MI as (_ & _ & j & E). congruence.
  - destruct H as [s i m Hm Hp|s k j Hk|s r Hr].
    + now apply wake_inv.
    + apply inv0_wake.
      * constructor; prj; try apply I.
        -- intros j'. pose proof (iA s I j'). pose proof (sumf_upd (pend j') _ _ _ (ETry j) Hk). cbn [pend] in *. lia.
        -- pose proof (iD s I). pose proof (sumf_upd isig _ _ _ (ETry j) Hk). cbn [isig] in *. lia.
        -- intros j'. pose proof (iE s I j'). pose proof (sumf_upd (cjob j') _ _ _ (ETry j) Hk). cbn [cjob] in *. lia.
        -- intros W. rewrite (iW s I W) in Hk. destruct k; discriminate.
        -- intros i m A B C. destruct (iS s I i m A B C) as [j' Hj']. exists j'. eapply in_upd_other; eauto. discriminate.
        -- intros i j' Hj. apply in_upd in Hj. destruct Hj as [Hj|Hj]; [discriminate|exact (iG s I _ _ ltac:(eassumption))].
      * prj. intros j' Hj. apply in_upd in Hj. destruct Hj as [Hj|Hj]; [discriminate|eapply iN; eauto].
      * prj. apply I.
    + assert (CE : calls s = []) by (apply I; congruence). apply inv0_wake; [|prj; rewrite CE; intros j []|prj; discriminate]. constructor; prj; try apply I; auto. intros r' [E|E]; [injection E as <-; apply (iR s I); auto|discriminate].
Qed.
Lemma reach_inv n s : reach n s -> inv s.
Proof. intros H. induction H as [|s s' _ IH Hs]; [apply init_inv|eapply step_inv; eauto]. Qed.

(* ---- progress ---- *)
Lemma step_length s s' : step s s' -> length (members s') = length (members s).
Proof. intros [H|[H|H]]; destruct H; prj; rewrite ?upd_length; reflexivity. Qed.
Lemma reach_length n s : reach n s -> length (members s) = n.
Proof. intros H. induction H as [|s s' _ IH Hs]; [cbn; now rewrite map_length, seq_length|]. rewrite (step_length _ _ Hs). exact IH. Qed.
Lemma quiescent n s : reach n s -> 1 <= n -> (forall s', ~ work_step s s') ->
  calls s = [] /\ waiting s = None /\ forall j, count (Start j) (hist s) = ltn j (next s) /\ count (Finish j) (hist s) = ltn j (next s).
Proof.
  intros R Hn Q. pose proof (reach_inv n s R) as I. pose proof (reach_length n s R) as L.
  assert (M1 : forall i m, nth_error (members s) i = Some m -> pc m = PNone \/ pc m = PSleep).
  { intros i m Hm. pose proof (iM s I i m Hm) as MI. unfold minv in MI. destruct (pc m) eqn:E; auto; try contradiction; exfalso.
    - destruct (tsk m) eqn:T; [eapply Q, w_take; eauto|eapply Q, w_idle; eauto].
    - destruct MI as (_ & _ & j & T). eapply Q, w_start; eauto.
    - eapply Q, w_finish; eauto.
    - eapply Q, w_clear; eauto.
    - eapply Q, w_count; eauto.
    - eapply Q, w_again; eauto.
    - eapply Q, w_retire; eauto. }
  assert (R0 : retired s = 0) by (destruct (retired s) eqn:E; [reflexivity|exfalso; eapply Q, w_bye; eauto]).
  assert (C1 : forall c, In c (calls s) -> exists j, c = ESleep j).
  { intros c Hc. apply In_nth_error in Hc. destruct Hc as [k Hk]. destruct c as [j|j|i j]; [exfalso|eauto|exfalso].
    - destruct (first_free (members s) 0) as [i|] eqn:F; [|eapply Q, w_full; eauto].
      pose proof F as F'. apply first_free_some in F'. destruct F' as [_ (m & Hm & _)]. rewrite Nat.sub_0_r in Hm. eapply Q, w_place; eauto.
    - pose proof (iG s I i j (nth_error_In _ _ Hk)) as Hi. destruct (nth_error (members s) i) as [m|] eqn:Hm; [eapply Q, w_signal; eauto|apply nth_error_None in Hm; lia]. }
  assert (M2 : forall i m, nth_error (members s) i = Some m -> tsk m = None /\ busy m = false).
  { intros i m Hm. pose proof (iM s I i m Hm) as MI. unfold minv in MI. destruct (M1 i m Hm) as [E|E]; rewrite E in MI; [tauto|]. destruct MI as (_ & _ & MI).
    destruct (tsk m) eqn:T.
    - destruct (iS s I i m Hm E) as [j Hj]; [congruence|]. destruct (C1 _ Hj) as [? ?]. discriminate.
    - split; [reflexivity|]. destruct (busy m); [|reflexivity]. exfalso. now apply MI. }
  assert (CE : calls s = []).
  { destruct (calls s) as [|c cs] eqn:CE; [reflexivity|]. exfalso. destruct (C1 c) as [j ->]; [now left|]. destruct (iN s I j) as [A|A]; [rewrite CE; now left| |lia].
    destruct (members s) as [|m ms] eqn:ME; [cbn in L; lia|]. destruct (M2 0 m eq_refl) as [_ B]. rewrite (A 0 m eq_refl) in B. discriminate. }
  assert (Z : forall f, (forall m, (pc m = PNone \/ pc m = PSleep) -> tsk m = None -> f m = 0) -> sumf f (members s) = 0).
  { intros f Hf. apply sumf_zero. intros m Hm. apply In_nth_error in Hm. destruct Hm as [i Hm]. apply Hf; [eapply M1; eauto|eapply M2; eauto]. }
  assert (WE : waiting s = None).
  { destruct (waiting s) as [w|] eqn:E; [|reflexivity]. exfalso. destruct w as [|r|r].
    - eapply Q, w_snapshot; eauto.
    - destruct (Nat.lt_ge_cases (cntCompleted s) r); [eapply Q, w_block; eauto|eapply Q, w_callback; eauto].
    - pose proof (iR s I r (or_intror E)). pose proof (iC s I). assert (sumf act (members s) = 0) by (apply Z; intros m [P|P] T; unfold act; rewrite P, T; reflexivity).
      destruct (iX s I r E) as [A|[A|(i & m & Hm & B)]]; [lia|lia|]. unfold will_bcast in B. destruct (M1 i m Hm) as [P|P]; rewrite P in B; discriminate. }
  split; [exact CE|]. split; [exact WE|]. intros j. pose proof (iA s I j) as A. pose proof (iB s I j) as B. rewrite CE in A. cbn [sumf fold_right] in A.
  assert (sumf (hold j) (members s) = 0) by (apply Z; intros m _ T; unfold hold; rewrite T; reflexivity).
  assert (sumf (runs j) (members s) = 0) by (apply Z; intros m [P|P] _; unfold runs; rewrite P; reflexivity). unfold sumf in *. lia.
Qed.
(* ---- termination ---- *)
Definition mw (m : member) : nat := match pc m with PNone | PSleep | PEnded => 0 | PTop => match tsk m with Some _ => 9 | None => 2 end
  | PExec => 8 | PRun _ => 7 | PClear => 6 | PCount => match tsk m with Some _ => 13 | None => 5 end | PStat => match tsk m with Some _ => 12 | None => 4 end | PRetire => 3 end.
Definition cw (c : call) : nat := match c with ETry _ | ESleep _ => 30 | ESig _ _ => 12 end.
Definition ww (w : option wcall) : nat := match w with None => 0 | Some WStart => 2 | Some _ => 1 end.
Definition phi (s : crew) : nat := sumf mw (members s) + sumf cw (calls s) + ww (waiting s) + retired s.
Definition ct (c : call) : nat := match c with ETry _ => 1 | _ => 0 end.
Definition wt (w : option wcall) : nat := match w with Some (WTry _) => 1 | _ => 0 end.
Definition psi (s : crew) : nat := sumf ct (calls s) + wt (waiting s).
Lemma work_decreases s s' : work_step s s' -> phi s' < phi s \/ (phi s' = phi s /\ psi s' < psi s).
Proof.
  assert (WC : forall c, cw (wake_call c) = cw c) by (destruct c; reflexivity).
  assert (WW : forall w, ww (wake_wait w) = ww w) by (destruct w as [[]|]; reflexivity).
  assert (MU : forall l i m m' k, nth_error l i = Some m -> mw m' + k <= mw m -> sumf mw (upd i m' l) + k <= sumf mw l) by (intros l i m m' k Hm Hk; pose proof (sumf_upd mw _ _ _ m' Hm); lia).
  assert (MV : forall l i m m' k, nth_error l i = Some m -> mw m' <= mw m + k -> sumf mw (upd i m' l) <= sumf mw l + k) by (intros l i m m' k Hm Hk; pose proof (sumf_upd mw _ _ _ m' Hm); lia).
  Ltac one MU H := match type of H with nth_error (members ?s) ?i = Some ?m => match goal with |- context[upd i ?m' (members s)] => pose proof (MU (members s) i m m' 1 H) as MUH; left; enough (mw m' + 1 <= mw m) by (specialize (MUH ltac:(assumption)); lia); clear MUH; unfold mw; cbn [pc tsk];
     repeat match goal with E : pc m = _ |- _ => rewrite E; clear E | E : tsk m = _ |- _ => rewrite E; clear E end; try lia; try (destruct (tsk m); lia) end end.
  intros H. unfold phi, psi. destruct H; prj; rewrite ?WW, ?(sumf_map cw wake_call) by apply WC.
  - left. pose proof (MV (members s) i m (assign (Job j) m) 9 H1) as V. assert (mw (assign (Job j) m) <= mw m + 9) by (unfold mw, assign; cbn [pc tsk]; destruct (alive m), (pc m), (tsk m); lia).
    specialize (V ltac:(assumption)). pose proof (sumf_upd cw _ _ _ (ESig i j) H). cbn [cw] in *. lia.
  - right. pose proof (sumf_upd cw _ _ _ (ESleep j) H). pose proof (sumf_upd ct _ _ _ (ESleep j) H). cbn [cw ct] in *. lia.
  - left. pose proof (MV (members s) i m (wake_member m) 9 H0) as V. assert (mw (wake_member m) <= mw m + 9) by (unfold mw, wake_member; cbn [pc tsk]; destruct (pc m), (tsk m); lia).
    specialize (V ltac:(assumption)). pose proof (sumf_remove cw _ _ _ H). cbn [cw] in *. lia.
  - left. rewrite H. cbn [ww]. lia.
  - right. rewrite H. cbn [ww wt]. lia.
  - left. rewrite H. cbn [ww]. lia.
  - one MU H.
  - one MU H.
  - one MU H.
  - one MU H.
  - one MU H.
  - one MU H.
  - one MU H.
  - one MU H.
  - left. pose proof (MU (members s) i m (Mem false false (tsk m) PNone) 3 H) as V. assert (mw (Mem false false (tsk m) PNone) + 3 <= mw m) by (unfold mw; cbn [pc]; rewrite H0; lia). specialize (V ltac:(assumption)). lia.
  - left. rewrite H. lia.
  - one MU H.
Qed.
Lemma work_wf : well_founded (fun s' s => work_step s s').
Proof.
  assert (A : forall p q s, phi s <= p -> (phi s = p -> psi s <= q) -> Acc (fun s' s => work_step s s') s).
  { induction p as [p IHp] using lt_wf_ind. induction q as [q IHq] using lt_wf_ind. intros s Hp Hq. constructor. intros s' H. pose proof (work_decreases _ _ H) as D.
    destruct (Nat.eq_dec (phi s') p) as [E|N].
    - apply (IHq (psi s')); [|lia|lia]. assert (phi s = p) by lia. specialize (Hq H0). lia.
    - apply (IHp (phi s') ltac:(lia) (psi s')); lia. }
  intros s. apply (A (phi s) (psi s)); lia.
Qed.
