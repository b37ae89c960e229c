(** Invariants of the component loop. *)
From Coq Require Import NArith List Bool Lia.
From Verif Require Import Base.Outcome Base.Arith Model.Log Model.Command Model.Err Model.Component Spec.ComponentSpec.
Import ListNotations.

Section ComponentP.
  Context {P : payloads} {St : Type} (C : component P St).
  Implicit Types (w : world P St) (tr : list (label P)) (a : label P).

  Notation step := (step C).
  Notation run := (run C).

  Lemma run_one w a w' : step w a w' -> run w [a] w'.
  Proof. intro H. apply (run_snoc _ w [] w a w'); [constructor|exact H]. Qed.

  Lemma run_app w tr w1 tr' w2 : run w tr w1 -> run w1 tr' w2 -> run w (tr ++ tr') w2.
  Proof.
    intros H1 H2. induction H2 as [|w1 tr' w3 a w4 _ IH S].
    - rewrite app_nil_r. exact H1.
    - rewrite app_assoc. econstructor; [exact (IH H1)|exact S].
  Qed.

  Lemma run_cons w a w1 tr w2 : step w a w1 -> run w1 tr w2 -> run w (a :: tr) w2.
  Proof. intros S R. exact (run_app w [a] w1 tr w2 (run_one _ _ _ S) R). Qed.

  Lemma run_snoc_inv w tr a w2 : run w (tr ++ [a]) w2 -> exists w1, run w tr w1 /\ step w1 a w2.
  Proof.
    intro H. inversion H as [w0 E1 E2|w0 tr0 w1 a0 w3 R S E1 E2 E3].
    - destruct tr; discriminate.
    - apply app_inj_tail in E2. destruct E2 as [-> ->]. exists w1. auto.
  Qed.

  Lemma run_split w tr : forall tr' w2, run w (tr ++ tr') w2 -> exists w1, run w tr w1 /\ run w1 tr' w2.
  Proof.
    intros tr' . induction tr' as [|a tr' IH] using rev_ind; intros w2 H.
    - rewrite app_nil_r in H. exists w2. split; [exact H|constructor].
    - rewrite app_assoc in H. apply run_snoc_inv in H. destruct H as (w1 & R & S).
      destruct (IH _ R) as (w3 & R1 & R2). exists w3. split; [exact R1|]. econstructor; eauto.
  Qed.

  Lemma run_cons_inv w a tr w2 : run w (a :: tr) w2 -> exists w1, step w a w1 /\ run w1 tr w2.
  Proof.
    intro H. apply (run_split w [a] tr) in H. destruct H as (w1 & R1 & R2). exists w1. split; [|exact R2].
    apply (run_snoc_inv w [] a w1) in R1. destruct R1 as (w0 & R & S). inversion R as [? E1 E2|? tr0 ? a0 ? ? ? E1 E2]; subst.
    - exact S.
    - destruct tr0; discriminate.
  Qed.

  Lemma given_app tr tr' : given (tr ++ tr') = given tr ++ given tr'.
  Proof. apply flat_map_app. Qed.
  Lemma state_after_app s is is' : state_after C s (is ++ is') = state_after C (state_after C s is) is'.
  Proof. revert s. induction is as [|i is IH]; simpl; auto. Qed.
  Lemma kept_app s is is' : kept C s (is ++ is') = kept C s is ++ kept C (state_after C s is) is'.
  Proof. revert s. induction is as [|i is IH]; intro s; simpl; auto. rewrite IH, app_assoc. reflexivity. Qed.
  Lemma time_after_snoc tr a : time_after (tr ++ [a]) = match a with Clock t => t | _ => time_after tr end.
  Proof. unfold time_after. rewrite fold_left_app. reflexivity. Qed.

  (** Once returned, only the environment acts, and the result stays *)
  Lemma returned_step w a w' r : ph w = Returned r -> step w a w' -> ph w' = Returned r /\ ~ by_component a.
  Proof.
    intros E S. inversion S; subst; simpl in *; try discriminate; auto;
      try (unfold selecting in *; simpl in *; subst; discriminate).
  Qed.

  Lemma returned_run w tr w' r : ph w = Returned r -> run w tr w' -> ph w' = Returned r /\ Forall (fun a => ~ by_component a) tr.
  Proof.
    intros E R. induction R as [|w tr w1 a w2 R IH S]; [auto|]. destruct (IH E) as [E1 F].
    destruct (returned_step _ _ _ _ E1 S). split; auto. apply Forall_app. auto.
  Qed.

  (** * The main invariant *)

  Definition thread_ok (s0 : St) tr w : Prop :=
    match ph w with
    | Starting s => s = s0 /\ Forall (fun a => ~ by_component a) tr
    | Polling s _ | Waiting s _ | Sending s _ _ => s = state_after C s0 (given tr)
    | Returned _ => True
    end.

  Definition inv (s0 : St) tr w : Prop :=
    thread_ok s0 tr w /\
    (forwarded tr ++ in_hand w ++ undeliverable tr = kept C s0 (given tr)) /\
    (undeliverable tr <> [] -> has_returned w) /\
    now w = time_after tr /\
    arrived_msgs tr = taken_msgs tr ++ msgs w.

  Lemma process_log_cases s d l :
    (exists s', process_log C s d l = Polling s' d /\ react_log C s l = (s', []))
    \/ (exists s' l', process_log C s d l = Sending s' d l' /\ react_log C s l = (s', [l'])).
  Proof.
    unfold process_log, react_log. destruct (on_log C s l) as [s' [[l'|]|e]]; [right|left|left]; eauto.
  Qed.

  Lemma process_message_cases s d m :
    (is_stop m /\ process_message C s d m = Returned (Ok tt) /\ react C s (InMsg m) = (s, []))
    \/ (~ is_stop m /\ exists s', process_message C s d m = Polling s' d /\ react C s (InMsg m) = (s', []))
    \/ (~ is_stop m /\ exists s' l', process_message C s d m = Sending s' d l' /\ react C s (InMsg m) = (s', [l'])).
  Proof.
    destruct m as [h c|h r|l|n|x|a|h t|h r];
      try (right; left; split; [intros (h' & n' & X); discriminate|]; eexists; split; reflexivity).
    - destruct c;
        try (right; left; split; [intros (h' & n' & X); discriminate|]; eexists; split; reflexivity).
      left. split; [eexists; eexists; reflexivity|split; reflexivity].
    - right. destruct (process_log_cases s d l) as [(s' & A & B)|(s' & l' & A & B)].
      + left. split; [intros (h' & n' & X); discriminate|]. exists s'. auto.
      + right. split; [intros (h' & n' & X); discriminate|]. exists s', l'. auto.
  Qed.

  Lemma after_tick_cases s t :
    (exists d, after_tick C s t = Polling (fst (tick C s)) d
       /\ ((d = None /\ snd (tick C s) = Ok None) \/ exists v, d = Some (t + v)%N /\ snd (tick C s) = Ok (Some v)))
    \/ (exists e, after_tick C s t = Returned (Err e) /\ snd (tick C s) = Err e).
  Proof.
    unfold after_tick. destruct (tick C s) as [s' [[v|]|e]]; simpl.
    - left. eexists. split; [reflexivity|]. right. eauto.
    - left. eexists. split; [reflexivity|]. left. auto.
    - right. eauto.
  Qed.

  Lemma selecting_phase w s d : selecting w = Some (s, d) -> ph w = Polling s d \/ ph w = Waiting s d.
  Proof. unfold selecting. destruct (ph w); intro H; inversion H; auto. Qed.

  Lemma proj_snoc {B} (f : label P -> list B) tr a : flat_map f (tr ++ [a]) = flat_map f tr ++ f a.
  Proof. rewrite flat_map_app. simpl. rewrite app_nil_r. reflexivity. Qed.

  (** In a phase where the thread runs, nothing was undeliverable *)
  Lemma inv_running s0 tr w : inv s0 tr w -> ~ has_returned w -> undeliverable tr = [].
  Proof. intros (_ & _ & U & _) N. destruct (undeliverable tr) eqn:E; auto. exfalso. apply N, U. discriminate. Qed.

  Lemma inv_selecting s0 tr w s d : inv s0 tr w -> selecting w = Some (s, d) ->
    s = state_after C s0 (given tr) /\ undeliverable tr = [] /\ forwarded tr = kept C s0 (given tr).
  Proof.
    intros I E. pose proof (inv_running _ _ _ I) as U. destruct I as (T & K & _). apply selecting_phase in E.
    unfold thread_ok, in_hand, has_returned in *.
    destruct E as [E|E]; rewrite E in *; (split; [exact T|]); rewrite U in * by (intros [r X]; discriminate);
      simpl in K; rewrite app_nil_r in K; auto.
  Qed.

  Ltac open_inv := unfold inv, thread_ok, in_hand, has_returned, forwarded, undeliverable, arrived_msgs, taken_msgs, given in *;
    rewrite ?proj_snoc in *; cbn [ph now msgs logs] in *; rewrite ?time_after_snoc, ?app_nil_r in *.

  Lemma inv_step s0 tr w a w' : inv s0 tr w -> step w a w' -> inv s0 (tr ++ [a]) w'.
  Proof.
    intros I S. pose proof I as I0. inversion S; subst.
    - (* arrive msg *) open_inv. destruct I as (T & K & U & N & M). splits; auto.
      + destruct p; auto. destruct T. split; auto. apply Forall_app. split; auto.
      + rewrite M, app_assoc. reflexivity.
    - open_inv. destruct I as (T & K & U & N & M). splits; auto.
      destruct p; auto. destruct T. split; auto. apply Forall_app. split; auto.
    - open_inv. destruct I as (T & K & U & N & M). splits; auto.
      destruct p; auto. destruct T. split; auto. apply Forall_app. split; auto.
    - open_inv. destruct I as (T & K & U & N & M). splits; auto.
      destruct p; auto. destruct T. split; auto. apply Forall_app. split; auto.
    - open_inv. destruct I as (T & K & U & N & M). splits; auto.
      destruct p; auto. destruct T. split; auto. apply Forall_app. split; auto.
    - open_inv. destruct I as (T & K & U & N & M). splits; auto.
      destruct p; auto. destruct T. split; auto. apply Forall_app. split; auto.
    - (* first tick *)
      assert (G : given tr = []). { destruct I as ((_ & F) & _). clear -F. induction F as [|b tr Hb _ IH]; auto.
        destruct b; simpl in *; tauto. }
      assert (U0 : undeliverable tr = []) by (apply (inv_running _ _ _ I); intros [r X]; discriminate X).
      open_inv. rewrite G, U0 in *. destruct I as ((-> & F) & K & U & N & M). simpl in *. rewrite !app_nil_r in *.
      splits; auto.
      + destruct (after_tick_cases s0 t) as [(d & E & _)|(e & E & _)]; rewrite E; simpl; auto.
      + destruct (after_tick_cases s0 t) as [(d & E & _)|(e & E & _)]; rewrite E; simpl; rewrite app_nil_r; auto.
      + tauto.
    - (* idle *) open_inv. destruct I as (T & K & U & N & M). splits; auto.
      intro X. destruct (U X) as [? ?]. discriminate.
    - (* tick *)
      destruct (inv_selecting _ _ _ _ _ I eq_refl) as (-> & U0 & F0). open_inv.
      fold (given tr) (forwarded tr) (undeliverable tr) in *. destruct I as (T & K & U & N & M).
      rewrite U0, state_after_app, kept_app. simpl. rewrite !app_nil_r. splits; auto.
      + destruct (after_tick_cases (state_after C s0 (given tr)) t) as [(d' & E & _)|(e & E & _)]; rewrite E; simpl; auto.
      + destruct (after_tick_cases (state_after C s0 (given tr)) t) as [(d' & E & _)|(e & E & _)]; rewrite E; simpl;
          rewrite app_nil_r; auto.
      + tauto.
    - (* take msg *)
      destruct (inv_selecting _ _ _ _ _ I H) as (-> & U0 & F0).
      open_inv. fold (given tr) (forwarded tr) (undeliverable tr) (taken_msgs tr) (arrived_msgs tr) in *.
      destruct I as (T & K & U & N & M). rewrite U0, state_after_app, kept_app. rewrite <- F0.
      cbn [state_after kept]. rewrite !app_nil_r.
      destruct (process_message_cases (state_after C s0 (given tr)) d m) as [(X & E & R)|[(X & s' & E & R)|(X & s' & l' & E & R)]];
        rewrite E, R; cbn [fst snd]; splits; auto; try tauto; rewrite M, <- app_assoc; reflexivity.
    - (* take log *)
      destruct (inv_selecting _ _ _ _ _ I H) as (-> & U0 & F0).
      open_inv. fold (given tr) (forwarded tr) (undeliverable tr) (taken_msgs tr) (arrived_msgs tr) in *.
      destruct I as (T & K & U & N & M). rewrite U0, state_after_app, kept_app. rewrite <- F0.
      cbn [state_after kept react]. rewrite !app_nil_r.
      destruct (process_log_cases (state_after C s0 (given tr)) d l) as [(s' & E & R)|(s' & l' & E & R)];
        rewrite E, R; cbn [fst snd]; splits; auto; tauto.
    - (* logs gone *)
      destruct (inv_selecting _ _ _ _ _ I H) as (-> & U0 & F0).
      open_inv. fold (given tr) (forwarded tr) (undeliverable tr) (taken_msgs tr) (arrived_msgs tr) in *.
      destruct I as (T & K & U & N & M). rewrite U0, F0. simpl. rewrite app_nil_r. splits; auto; tauto.
    - (* forward *)
      assert (U0 : undeliverable tr = []) by (apply (inv_running _ _ _ I); intros [r X]; discriminate X).
      open_inv. fold (given tr) (forwarded tr) (undeliverable tr) (taken_msgs tr) (arrived_msgs tr) in *.
      destruct I as (T & K & U & N & M). rewrite U0 in *. simpl in *. rewrite !app_nil_r in *. splits; auto; tauto.
    - (* send failed *)
      assert (U0 : undeliverable tr = []) by (apply (inv_running _ _ _ I); intros [r X]; discriminate X).
      open_inv. fold (given tr) (forwarded tr) (undeliverable tr) (taken_msgs tr) (arrived_msgs tr) in *.
      destruct I as (T & K & U & N & M). rewrite U0 in *. simpl in *. splits; auto; eauto.
  Qed.

  Lemma inv_launch comp x : inv (duplicate C comp) [] (launch C comp x).
  Proof. unfold inv, thread_ok. simpl. splits; auto. tauto. Qed.

  Theorem inv_run comp x tr w : run (launch C comp x) tr w -> inv (duplicate C comp) tr w.
  Proof.
    intro R. remember (launch C comp x) as w0 eqn:E. induction R as [|w0 tr w1 a w2 R IH S].
    - subst. apply inv_launch.
    - eapply inv_step; eauto.
  Qed.

  (** * The log channels *)

  Lemma pop_wired q i o c r l x' : pop_log (Wired q i o c r) = Some (l, x') -> exists q', q = l :: q' /\ x' = Wired q' i o c r.
  Proof. destruct q; simpl; intro H; inversion H; eauto. Qed.

  Definition wired_inv inq outq tr w : Prop :=
    exists q i o c r, logs w = Wired q i o c r /\ inq ++ arrived_logs tr = taken_logs tr ++ q
      /\ outq ++ forwarded tr = consumed tr ++ o.

  Lemma wired_run comp inq i outq c r tr w : run (launch C comp (Wired inq i outq c r)) tr w -> wired_inv inq outq tr w.
  Proof.
    intro R. remember (launch C comp _) as w0 eqn:E. induction R as [|w0 tr w1 a w2 R IH S].
    - subst. exists inq, i, outq, c, r. simpl. rewrite !app_nil_r. auto.
    - destruct (IH E) as (q & i' & o & c' & r' & L & A & F). unfold wired_inv, arrived_logs, taken_logs, forwarded, consumed in *.
      rewrite !proj_snoc. inversion S; subst; cbn [logs] in *; rewrite ?app_nil_r;
        try (do 5 eexists; splits; [exact L|auto|auto]; fail).
      + (* arrive log *) inversion L; subst. do 5 eexists. splits; [reflexivity| |exact F]. rewrite app_assoc, A, app_assoc. reflexivity.
      + inversion L; subst. do 5 eexists. splits; [reflexivity|exact A|exact F].
      + inversion L; subst. do 5 eexists. splits; [reflexivity|exact A|]. rewrite F, <- app_assoc. reflexivity.
      + inversion L; subst. do 5 eexists. splits; [reflexivity|exact A|exact F].
      + subst x. match goal with H : pop_log _ = Some _ |- _ => apply pop_wired in H; destruct H as (q' & -> & ->) end.
        do 5 eexists. splits; [reflexivity| |exact F]. rewrite A, <- app_assoc. reflexivity.
      + subst x. simpl. do 5 eexists. splits; [reflexivity|exact A|]. rewrite app_assoc, F, app_assoc. reflexivity.
  Qed.

  (** Flags only change by closing *)
  Lemma wired_flags comp inq outq c tr w : run (launch C comp (Wired inq true outq c true)) tr w ->
    exists q i o r, logs w = Wired q i o c r /\ (i = false -> In CloseIn tr) /\ (r = false -> In CloseOut tr).
  Proof.
    intro R. remember (launch C comp _) as w0 eqn:E. induction R as [|w0 tr w1 a w2 R IH S].
    - subst. exists inq, true, outq, true. simpl. splits; auto; discriminate.
    - destruct (IH E) as (q & i' & o & r' & L & A & F).
      assert (A' : i' = false -> In CloseIn (tr ++ [a])) by (intro X; apply in_or_app; left; auto).
      assert (F' : r' = false -> In CloseOut (tr ++ [a])) by (intro X; apply in_or_app; left; auto).
      inversion S; subst; cbn [logs] in *;
        try (do 4 eexists; splits; [exact L|exact A'|exact F']; fail);
        try (inversion L; subst; do 4 eexists; splits; [reflexivity|exact A'|exact F']; fail).
      + inversion L; subst. do 4 eexists; splits; [reflexivity|intros _; apply in_or_app; right; left; reflexivity|exact F'].
      + inversion L; subst. do 4 eexists; splits; [reflexivity|exact A'|intros _; apply in_or_app; right; left; reflexivity].
      + subst x. match goal with H : pop_log _ = Some _ |- _ => apply pop_wired in H; destruct H as (q' & -> & ->) end.
        do 4 eexists; splits; [reflexivity|exact A'|exact F'].
  Qed.

  (** * Work *)
  Definition weight w : nat :=
    match ph w with Starting _ => 4 | Sending _ _ _ => 3 | Polling _ _ => 2 | Waiting _ _ => 1 | Returned _ => 0 end
    + 4 * (length (msgs w) + match logs w with Looped _ => 0 | Wired q _ _ _ _ => length q end).

  Definition is_wired w : Prop := match logs w with Wired _ _ _ _ _ => True | _ => False end.

  Lemma step_wired w a w' : is_wired w -> step w a w' -> is_wired w'.
  Proof.
    unfold is_wired. intros I S. inversion S; subst; simpl in *; auto.
    - destruct x as [|q i o c r]; [destruct I|]. apply pop_wired in H0. destruct H0 as (q' & -> & ->). exact I.
    - destruct x; auto.
  Qed.

  Lemma phase_weight_log s d l : match process_log C s d l with Starting _ => 4 | Sending _ _ _ => 3 | Polling _ _ => 2 | Waiting _ _ => 1 | Returned _ => 0 end <= 3.
  Proof. destruct (process_log_cases s d l) as [(s' & E & _)|(s' & l' & E & _)]; rewrite E; lia. Qed.

  Lemma phase_weight_msg s d m : match process_message C s d m with Starting _ => 4 | Sending _ _ _ => 3 | Polling _ _ => 2 | Waiting _ _ => 1 | Returned _ => 0 end <= 3.
  Proof.
    destruct (process_message_cases s d m) as [(X & E & R)|[(X & s' & E & R)|(X & s' & l' & E & R)]]; rewrite E; lia.
  Qed.

  Lemma work_decreases w a w' : is_wired w -> step w a w' -> by_component a -> a <> Tick -> weight w' < weight w.
  Proof.
    unfold is_wired, weight. intros I S B NT. inversion S; subst; cbn [ph msgs logs] in *; simpl in B; try tauto; try congruence.
    - lia.
    - apply selecting_phase in H. simpl in H. pose proof (phase_weight_msg s d m).
      destruct H as [->| ->]; simpl length; lia.
    - apply selecting_phase in H. simpl in H. pose proof (phase_weight_log s d l).
      destruct x as [|q i o c r]; [destruct I|]. apply pop_wired in H0. destruct H0 as (q' & -> & ->).
      destruct H as [->| ->]; simpl length; lia.
    - apply selecting_phase in H. simpl in H. destruct H as [->| ->]; lia.
    - destruct x; simpl; lia.
    - lia.
  Qed.

  (** When the component cannot move by itself *)
  Lemma stuck_cases w : (forall a w', by_component a -> ~ step w a w') ->
    has_returned w
    \/ (exists s d, ph w = Waiting s d /\ ready w = false /\ (forall t, d = Some t -> (now w < t)%N))
    \/ (exists s d l, ph w = Sending s d l /\ out_room (logs w) = false /\ out_gone (logs w) = false).
  Proof.
    intro ST. destruct w as [p t ms x]. destruct p as [s|s d|s d|s d l|r]; simpl.
    - exfalso. apply (ST Tick _ I (s_start C s t ms x)).
    - exfalso. destruct (ready (World (Polling s d) t ms x)) eqn:R.
      + unfold ready in R. simpl in R. destruct ms as [|m ms].
        * destruct (pop_log x) as [[l x']|] eqn:E.
          -- apply (ST (TakeLog l) _ I (s_take_log C (Polling s d) s d t [] x l x' eq_refl E)).
          -- apply (ST LogsGone _ I (s_logs_gone C (Polling s d) s d t [] x eq_refl R)).
        * apply (ST (TakeMsg m) _ I (s_take_msg C (Polling s d) s d t m ms x eq_refl)).
      + apply (ST Idle _ I (s_idle C s d t ms x R)).
    - right. left. exists s, d. split; [reflexivity|]. split.
      + destruct (ready (World (Waiting s d) t ms x)) eqn:R; auto. exfalso.
        unfold ready in R. simpl in R. destruct ms as [|m ms].
        * destruct (pop_log x) as [[l x']|] eqn:E.
          -- apply (ST (TakeLog l) _ I (s_take_log C (Waiting s d) s d t [] x l x' eq_refl E)).
          -- apply (ST LogsGone _ I (s_logs_gone C (Waiting s d) s d t [] x eq_refl R)).
        * apply (ST (TakeMsg m) _ I (s_take_msg C (Waiting s d) s d t m ms x eq_refl)).
      + intros t' ->. destruct (N.lt_ge_cases t t') as [L|L]; auto. exfalso.
        apply (ST Tick _ I (s_tick C s t' t ms x L)).
    - right. right. exists s, d, l. split; [reflexivity|].
      destruct (out_gone x) eqn:G.
      + exfalso. apply (ST (SendFailed l) _ I (s_send_failed C s d l t ms x G)).
      + split; auto. destruct (out_room x) eqn:O; auto. exfalso.
        apply (ST (Forward l) _ I (s_forward C s d l t ms x G O)).
    - left. exists r. reflexivity.
  Qed.
End ComponentP.

Section Ticks.
  Context {P : payloads} {St : Type} (C : component P St).
  Implicit Types (w : world P St) (tr : list (label P)).

  (** [d] is the deadline set by the tick that ended the history [tr1] *)
  Definition set_by (s0 : St) tr1 (d : option N) : Prop :=
    (d = None /\ snd (tick C (state_after C s0 (given tr1))) = Ok None)
    \/ exists v, d = Some (time_after tr1 + v)%N /\ snd (tick C (state_after C s0 (given tr1))) = Ok (Some v).

  Definition last_tick (s0 : St) tr d : Prop :=
    exists tr1 tr2, tr = tr1 ++ Tick :: tr2 /\ ~ In Tick tr2 /\ set_by s0 tr1 d.

  Definition slept tr : Prop := exists tr1 tr2, tr = tr1 ++ Idle :: tr2 /\ Forall (fun a => ~ by_component a) tr2.

  Definition tick_ok (s0 : St) tr w : Prop :=
    match ph w with
    | Polling _ d | Sending _ d _ => last_tick s0 tr d
    | Waiting _ d => last_tick s0 tr d /\ slept tr
    | _ => True
    end.

  Lemma last_tick_snoc s0 tr d a : last_tick s0 tr d -> a <> Tick -> last_tick s0 (tr ++ [a]) d.
  Proof.
    intros (tr1 & tr2 & -> & N & D) Ha. exists tr1, (tr2 ++ [a]). splits; auto.
    - rewrite <- app_assoc. reflexivity.
    - rewrite in_app_iff. simpl. intuition congruence.
  Qed.
  Lemma slept_snoc tr a : slept tr -> ~ by_component a -> slept (tr ++ [a]).
  Proof.
    intros (tr1 & tr2 & -> & F) Ha. exists tr1, (tr2 ++ [a]). split.
    - rewrite <- app_assoc. reflexivity.
    - apply Forall_app. auto.
  Qed.

  Lemma tick_ok_run comp x tr w : run C (launch C comp x) tr w -> tick_ok (duplicate C comp) tr w.
  Proof.
    intro R. remember (launch C comp x) as w0 eqn:E. induction R as [|w0 tr w1 a w2 R IH S].
    - subst. exact I.
    - specialize (IH E). subst w0. pose proof (inv_run C comp x tr w1 R) as INV.
      unfold tick_ok in *. inversion S; subst; cbn [ph] in *.
      all: try (destruct p; auto; try (apply last_tick_snoc; [exact IH|discriminate]);
        destruct IH; split; [apply last_tick_snoc; [auto|discriminate]|apply slept_snoc; auto]; fail).
      + (* first tick *)
        destruct INV as ((-> & _) & _ & _ & N & _). simpl in N. subst t.
        assert (G : given tr = []).
        { pose proof (inv_run C comp x tr _ R) as ((_ & F) & _). clear -F. induction F as [|b tr Hb _ IH]; auto.
          destruct b; simpl in *; tauto. }
        destruct (after_tick_cases C (duplicate C comp) (time_after tr)) as [(d & E & D)|(e & E & _)]; rewrite E; auto.
        exists tr, []. splits; auto. unfold set_by. rewrite G. simpl. destruct D as [[? ?]|(v & ? & ?)]; eauto.
      + (* idle *) split; [apply last_tick_snoc; [exact IH|discriminate]|]. exists tr, []. auto.
      + (* tick *)
        destruct INV as (T & _ & _ & N & _). unfold thread_ok in T. simpl in N, T. subst t s.
        destruct (after_tick_cases C (state_after C (duplicate C comp) (given tr)) (time_after tr)) as [(d' & E & D)|(e & E & _)]; rewrite E; auto.
        exists tr, []. split; [reflexivity|split; [auto|]]. unfold set_by. destruct D as [[? ?]|(v & ? & ?)]; eauto.
      + (* take msg *)
        assert (LT : last_tick (duplicate C comp) tr d).
        { apply selecting_phase in H. simpl in H. destruct H as [->| ->]; simpl in IH; tauto. }
        destruct (process_message_cases C s d m) as [(X & E & Q)|[(X & s' & E & Q)|(X & s' & l' & E & Q)]]; rewrite E; auto;
          apply last_tick_snoc; auto; discriminate.
      + assert (LT : last_tick (duplicate C comp) tr d).
        { apply selecting_phase in H. simpl in H. destruct H as [->| ->]; simpl in IH; tauto. }
        destruct (process_log_cases C s d l) as [(s' & E & Q)|(s' & l' & E & Q)]; rewrite E;
          apply last_tick_snoc; auto; discriminate.
      + exact I.
      + apply last_tick_snoc; [exact IH|discriminate].
      + exact I.
  Qed.

  Lemma last_tick_unique s0 tr1 tr2 d : last_tick s0 (tr1 ++ Tick :: tr2) d -> ~ In Tick tr2 -> set_by s0 tr1 d.
  Proof.
    intros (a & b & E & N & D) N2.
    assert (a = tr1) as ->; [|exact D].
    revert tr1 E. clear D. induction a as [|x a IH]; intros [|y c] E; simpl in E; auto.
    - exfalso. inversion E; subst. apply N. apply in_or_app. right. left. reflexivity.
    - exfalso. inversion E; subst. apply N2. apply in_or_app. right. left. reflexivity.
    - inversion E; subst. f_equal. apply IH. assumption.
  Qed.
End Ticks.
