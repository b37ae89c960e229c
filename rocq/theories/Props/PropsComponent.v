(** C40, C41, C42, C68, C69, C70: the event loop of a component. *)
From Coq Require Import String NArith List Bool Lia.
From Verif Require Import Base.Outcome Base.Arith Model.Field Model.Log Model.Command Model.Err Model.Component
  Spec.ComponentSpec Proofs.ComponentP.
Import ListNotations.
Local Open Scope list_scope.

(** A component to which the kernel gave the two ends of its log channels, the output having capacity [c] *)
Definition wired (c : option nat) : wiring := Wired [] true [] c true.

(** * C40 *)

(** Whatever happens and whenever we look: the logs taken are the first of those that arrived, in order; what was
    forwarded (plus the log just being forwarded, plus one that could not be because nobody listens any more) is
    exactly what the handler kept of what it was given, in order; the reader of the output has seen the first of them, in
    order; messages are taken in order. *)
Theorem C40_forwards_exactly_the_kept_logs : forall P St (C : component P St) comp c tr w,
  run C (launch C comp (wired c)) tr w ->
  arrived_logs tr = taken_logs tr ++ queued_in (logs w)
  /\ arrived_msgs tr = taken_msgs tr ++ msgs w
  /\ kept C (duplicate C comp) (given tr) = forwarded tr ++ in_hand w ++ undeliverable tr
  /\ forwarded tr = consumed tr ++ queued_out (logs w)
  /\ (undeliverable tr <> [] -> has_returned w).
Proof.
  intros P St C comp c tr w R. destruct (inv_run C comp _ tr w R) as (_ & K & U & _ & M).
  destruct (wired_run C comp [] true [] c true tr w R) as (q & i & o & c' & r & L & A & F). simpl in A, F. rewrite L. splits; auto.
Qed.

(** An error of the handler, on a log or on a message, never makes the component return: only a stop command does. *)
Theorem C40_errors_do_not_stop : forall P St (C : component P St) w w' a,
  step C w a w' -> (exists l, a = TakeLog l) \/ (exists m, a = TakeMsg m /\ ~ is_stop m) -> ~ has_returned w'.
Proof.
  intros P St C w w' a S D [r E]. destruct D as [(l & ->)|(m & -> & N)]; inversion S; subst; simpl in E.
  - destruct (process_log_cases C s d l) as [(s' & X & _)|(s' & l' & X & _)]; rewrite X in E; discriminate.
  - destruct (process_message_cases C s d m) as [(X & _)|[(_ & s' & X & _)|(_ & s' & l' & X & _)]]; [contradiction| |];
      rewrite X in E; discriminate.
Qed.

(** The component does not leave work undone: left to itself it can always go on, unless it has returned, sleeps with
    nothing to take and no tick due, or waits for room in a full output. *)
Theorem C40_progress : forall P St (C : component P St) w,
  (forall a w', by_component a -> ~ step C w a w') ->
  has_returned w
  \/ (exists s d, ph w = Waiting s d /\ msgs w = [] /\ queued_in (logs w) = [] /\ (forall t, d = Some t -> (now w < t)%N))
  \/ (exists s d l, ph w = Sending s d l /\ out_room (logs w) = false).
Proof.
  intros P St C w ST. destruct (stuck_cases C w ST) as [H|[(s & d & E & R & T)|(s & d & l & E & O & _)]]; auto.
  - right. left. exists s, d. splits; auto; unfold ready in R; destruct (msgs w); try discriminate; auto.
    destruct (logs w) as [[|l q]|[|l q]]; simpl in *; auto; discriminate.
  - right. right. eauto.
Qed.

(** ... and between two ticks it does so in a bounded number of steps: four per pending message or log, and three. *)
Theorem C40_bounded_work : forall P St (C : component P St) comp c tr w tr' w',
  run C (launch C comp (wired c)) tr w -> run C w tr' w' -> Forall (fun a => by_component a /\ a <> Tick) tr' ->
  length tr' <= 4 * (length (msgs w) + length (queued_in (logs w))) + 4.
Proof.
  intros P St C comp c tr w tr' w' R R' F.
  assert (W : is_wired w).
  { destruct (wired_run C comp [] true [] c true tr w R) as (q & i & o & c' & r & L & _). unfold is_wired. rewrite L. exact I. }
  assert (B : weight w' + length tr' <= weight w /\ is_wired w').
  { clear R. induction R' as [|w tr' w1 a w2 R' IH S]; [simpl; split; auto; lia|].
    apply Forall_app in F. destruct F as [F1 F2]. destruct (IH F1 W) as [B1 W1]. inversion F2 as [|? ? [Ba Na]]; subst.
    pose proof (work_decreases C _ _ _ W1 S Ba Na). rewrite app_length. simpl. split; [lia|]. eapply step_wired; eauto. }
  destruct B as [B _]. unfold weight in B. unfold is_wired in W. destruct (logs w); [destruct W|]. simpl.
  destruct (ph w), (ph w'); lia.
Qed.

(** A component that does not define the handlers lets every log it is given through, from either channel, in order. *)
Definition handed {P} (tr : list (label P)) : list log :=
  flat_map (fun a => match a with TakeLog l => [l] | TakeMsg (MLog l) => [l] | _ => [] end) tr.
Theorem C40_default_keeps_all : forall P St (comp : St) c tr w,
  run (default_component P St) (launch (default_component P St) comp (wired c)) tr w ->
  handed tr = forwarded tr ++ in_hand w ++ undeliverable tr.
Proof.
  intros P St comp c tr w R. destruct (C40_forwards_exactly_the_kept_logs P St _ comp c tr w R) as (_ & _ & K & _). rewrite <- K.
  clear. generalize (duplicate (default_component P St) comp) as s. unfold handed, given. induction tr as [|a tr IH]; intros s; [reflexivity|].
  cbn [flat_map]. destruct a as [ | | | | | | | |m|l| | | ]; cbn [app kept]; try apply IH.
  - destruct m; cbn [app kept react react_log]; try apply IH. cbn. f_equal. apply IH.
  - cbn. f_equal. apply IH.
Qed.

(** ** Non-vacuity *)
Definition P0 : payloads := Payloads unit unit unit unit.
(** A component that counts logs, drops every second one and fails on those without a message *)
Definition filter_comp : component P0 nat :=
  {| duplicate := fun s => s; on_command := fun s _ _ => (s, Ok tt); on_response := fun s _ _ => (s, Ok tt);
     on_log := fun s l => (S s, if String.eqb (log_message l) "" then Err (E_Other "empty") else Ok (if Nat.even s then Some l else None));
     on_dataset := fun s _ => (s, Ok tt); on_alert := fun s _ => (s, Ok tt); on_task := fun s _ _ => (s, Ok tt);
     on_task_result := fun s _ _ => (s, Ok tt); on_notification := fun s _ => (s, Err (E_Other "no")); tick := fun s => (s, Ok None) |}.
Definition mk (s : string) : log := log_new s 0 "o".

Ltac go := match goal with
  | |- run _ _ [] _ => apply run_nil
  | |- run _ _ (_ :: _) _ => eapply run_cons; [econstructor; simpl; try reflexivity; try lia; try (unfold msg_capacity; lia)|simpl]
  end.

Example C40_case : exists w, run filter_comp (launch filter_comp 0 (wired (Some 1)))
  [ArriveLog (mk "a"); Tick; ArriveLog (mk ""); ArriveLog (mk "c"); TakeLog (mk "a"); Forward (mk "a"); ArriveLog (mk "d");
   TakeLog (mk ""); Consume (mk "a"); TakeLog (mk "c"); Forward (mk "c"); TakeLog (mk "d"); Idle] w
  /\ queued_out (logs w) = [mk "c"] /\ queued_in (logs w) = [].
Proof. eexists. split; [|split]; [repeat go|reflexivity|reflexivity]. Qed.

(** * C41 *)

(** Taking a stop command ends the run with [Ok]; afterwards the component does nothing more. *)
Theorem C41_stop_stops : forall P St (C : component P St) comp x tr m tr' w,
  run C (launch C comp x) (tr ++ TakeMsg m :: tr') w -> is_stop m ->
  ph w = Returned (Ok tt) /\ Forall (fun a => ~ by_component a) tr'.
Proof.
  intros P St C comp x tr m tr' w R (h & n & ->). apply run_split in R. destruct R as (w1 & _ & R).
  apply run_cons_inv in R. destruct R as (w2 & S & R). apply (returned_run C w2 tr' w); auto. inversion S; subst. reflexivity.
Qed.

(** A channel that was closed stays closed: no log arrives after its last sender is gone, and a component that has nothing
    left to do has then returned, unless it waits for room in a full output. *)
Theorem C41_input_gone : forall P St (C : component P St) comp c tr1 tr2 w,
  run C (launch C comp (wired c)) (tr1 ++ CloseIn :: tr2) w ->
  (forall l, ~ In (ArriveLog l) tr2) /\
  ((forall a w', by_component a -> ~ step C w a w') ->
   has_returned w \/ exists s d l, ph w = Sending s d l /\ out_room (logs w) = false).
Proof.
  intros P St C comp c tr1 tr2 w R. apply run_split in R. destruct R as (w1 & _ & R). apply run_cons_inv in R. destruct R as (w2 & S & R).
  assert (L : exists q o c r, logs w2 = Wired q false o c r) by (inversion S; subst; cbn; eauto). clear S.
  assert (K : (forall l, ~ In (ArriveLog l) tr2) /\ exists q o c r, logs w = Wired q false o c r).
  { induction R as [|w0 tr w3 a w4 R IH S]; [split; [intros l []|exact L]|]. destruct (IH L) as (A & q & o & c' & r & E).
    inversion S; subst; cbn [logs] in *; try discriminate E;
      (split; [intros l0 I; apply in_app_or in I as [I|[I|[]]]; [exact (A _ I)|discriminate]|]); try (injection E as E; intros; subst); rewrite ?E; cbn [push_out];
      try match goal with H : pop_log _ = Some _ |- _ => rewrite E in H; apply pop_wired in H; destruct H as (? & ? & ?); subst end; eauto. }
  destruct K as (A & q & o & c' & r & E). split; [exact A|]. intros D.
  destruct (C40_progress P St C w D) as [H|[(s & d & W & M & Q & T)|H]]; [left; exact H| |right; exact H].
  exfalso. rewrite E in Q. cbn in Q. subst q. destruct w as [p t ms x]. cbn in W, M, E. subst.
  refine (D LogsGone _ Logic.I (s_logs_gone C (Waiting s d) s d t [] (Wired [] false o c' r) eq_refl eq_refl)).
Qed.
(** Nor is one forwarded after the last receiver of the output is gone, and then the component never waits for room. *)
Theorem C41_output_gone : forall P St (C : component P St) comp c tr1 tr2 w,
  run C (launch C comp (wired c)) (tr1 ++ CloseOut :: tr2) w ->
  (forall l, ~ In (Forward l) tr2 /\ ~ In (Consume l) tr2) /\
  ((forall a w', by_component a -> ~ step C w a w') ->
   has_returned w \/ (exists s d, ph w = Waiting s d /\ msgs w = [] /\ queued_in (logs w) = [] /\ (forall t, d = Some t -> (now w < t)%N))).
Proof.
  intros P St C comp c tr1 tr2 w R. apply run_split in R. destruct R as (w1 & _ & R). apply run_cons_inv in R. destruct R as (w2 & S & R).
  assert (L : exists q i o c, logs w2 = Wired q i o c false) by (inversion S; subst; cbn; eauto). clear S.
  assert (K : (forall l, ~ In (Forward l) tr2 /\ ~ In (Consume l) tr2) /\ exists q i o c, logs w = Wired q i o c false).
  { induction R as [|w0 tr w3 a w4 R IH S]; [split; [intros l; split; intros []|exact L]|]. destruct (IH L) as (A & q & i & o & c' & E).
    assert (B : (forall l, a <> Forward l /\ a <> Consume l) -> forall l, ~ In (Forward l) (tr ++ [a]) /\ ~ In (Consume l) (tr ++ [a])).
    { intros N l. destruct (A l), (N l). split; intros X; apply in_app_or in X as [X|[X|[]]]; auto. }
    inversion S; subst; cbn [logs] in *; try discriminate E;
      try (match goal with H : out_gone _ = false |- _ => exfalso; rewrite E in H; discriminate H end);
      (split; [apply B; intros l0; split; discriminate|]); try (injection E as E; intros; subst); rewrite ?E; cbn [push_out];
      try match goal with H : pop_log _ = Some _ |- _ => rewrite E in H; apply pop_wired in H; destruct H as (? & ? & ?); subst end; eauto. }
  destruct K as (A & q & i & o & c' & E). split; [exact A|]. intros D.
  destruct (C40_progress P St C w D) as [H|[H|(s & d & l & W & H)]]; [left; exact H|right; exact H|].
  exfalso. destruct w as [p t ms x]. cbn in W, E. subst.
  refine (D (SendFailed l) _ Logic.I (s_send_failed C s d l t ms (Wired q i o c' false) eq_refl)).
Qed.

(** The component returns only for one of four reasons: it took a stop command; all senders of logs are gone and all
    logs were taken; a log could not be forwarded because nobody listens; a tick failed (and then with that error). *)
Theorem C41_only_reasons : forall P St (C : component P St) comp c tr w r,
  run C (launch C comp (wired c)) tr w -> ph w = Returned r ->
  exists tr1 a tr2, tr = tr1 ++ a :: tr2 /\ Forall (fun a => ~ by_component a) tr2 /\
    ((exists m, a = TakeMsg m /\ is_stop m /\ r = Ok tt)
     \/ (a = LogsGone /\ In CloseIn tr1 /\ arrived_logs tr1 = taken_logs tr1 /\ r = Ok tt)
     \/ (exists l, a = SendFailed l /\ In CloseOut tr1 /\ r = Ok tt)
     \/ (exists e, a = Tick /\ r = Err e /\ snd (tick C (state_after C (duplicate C comp) (given tr1))) = Err e)).
Proof.
  intros P St C comp c tr w r R. remember (launch C comp (wired c)) as w0 eqn:E0. revert r.
  induction R as [|w0 tr w1 a w2 R IH S]; intros r E; [subst; discriminate|]. specialize (IH E0). subst w0.
  destruct (ph w1) eqn:P1.
  5: { destruct (returned_step C _ _ _ _ P1 S) as [E2 N]. assert (r0 = r) by congruence. subst r0.
       destruct (IH r eq_refl) as (tr1 & b & tr2 & -> & F & D). exists tr1, b, (tr2 ++ [a]). splits; auto.
       - rewrite <- app_assoc. reflexivity.
       - apply Forall_app. auto. }
  all: exists tr, a, []; splits; auto; pose proof (inv_run C comp _ tr w1 R) as I;
    pose proof (wired_flags C comp [] [] c tr w1 R) as (q & i & o & r' & L & FI & FO);
    pose proof (wired_run C comp [] true [] c true tr w1 R) as (q' & i' & o' & c'' & r'' & L' & A & _).
  all: inversion S; subst; cbn [ph logs] in *; subst; try discriminate; try congruence.
  all: try match type of E with
    | after_tick ?C ?s ?t = _ =>
        right; right; right; destruct (after_tick_cases C s t) as [(d' & X & _)|(e & X & Y)]; rewrite X in E; [discriminate|];
        inversion E; subst; exists e; splits; auto
    | process_message ?C ?s ?d ?m = _ =>
        left; exists m; destruct (process_message_cases C s d m) as [(X & X' & _)|[(_ & s' & X & _)|(_ & s' & l' & X & _)]];
        [rewrite X' in E; splits; auto; congruence|rewrite X in E; discriminate|rewrite X in E; discriminate]
    | process_log ?C ?s ?d ?l = _ =>
        exfalso; destruct (process_log_cases C s d l) as [(s' & X & _)|(s' & l' & X & _)]; rewrite X in E; discriminate
    end.
  - (* first tick *)
    destruct I as ((-> & F) & _). simpl in *.
    assert (G : given tr = []). { clear -F. induction F as [|b tr Hb _ IH]; auto. destruct b; simpl in *; tauto. }
    rewrite G. exact Y.
  - (* logs gone *)
    right. left. destruct q; simpl in H0; try discriminate. destruct i; try discriminate. splits; auto; [|congruence].
    injection L' as <- _ _ _ _. simpl in A. rewrite app_nil_r in A. exact A.
  - (* tick *)
    destruct I as (T & _). unfold thread_ok in T. simpl in T. rewrite <- T. exact Y.
  - right. left. destruct q; simpl in H0; try discriminate. destruct i; try discriminate. splits; auto; [|congruence].
    injection L' as <- _ _ _ _. simpl in A. rewrite app_nil_r in A. exact A.
  - (* send failed *)
    right. right. left. eexists. splits; [reflexivity| |congruence]. simpl in H. destruct r'; try discriminate. auto.
Qed.

Example C41_case : exists w, run filter_comp (launch filter_comp 0 (wired None))
  [Tick; ArriveLog (mk "a"); ArriveMsg (MCommand header_default (C_STOP_COMPONENT "x")); ArriveMsg (MLog (mk "b"));
   TakeMsg (MCommand header_default (C_STOP_COMPONENT "x")); ArriveLog (mk "c")] w
  /\ ph w = Returned (Ok tt) /\ queued_in (logs w) = [mk "a"; mk "c"].
Proof. eexists. split; [|split]; [repeat go|reflexivity|reflexivity]. Qed.

(** all senders go away, the last logs are taken and forwarded, and the component has returned *)
Example C41_gone_case : exists w, run filter_comp (launch filter_comp 0 (wired None))
  ([Tick; ArriveLog (mk "a")] ++ CloseIn :: [TakeLog (mk "a"); Forward (mk "a"); LogsGone]) w /\ ph w = Returned (Ok tt) /\ queued_out (logs w) = [mk "a"].
Proof. eexists. split; [|split]; [simpl app; repeat go|reflexivity|reflexivity]. Qed.
Example C41_nobody_case : exists w, run filter_comp (launch filter_comp 0 (wired None))
  ([Tick; ArriveLog (mk "a")] ++ CloseOut :: [TakeLog (mk "a"); SendFailed (mk "a")]) w /\ ph w = Returned (Ok tt).
Proof. eexists. split; [simpl app; repeat go|reflexivity]. Qed.

(** * C42 *)

(** The first thing the component does is to tick. *)
Theorem C42_first_tick : forall P St (C : component P St) comp x tr a tr' w,
  run C (launch C comp x) (tr ++ a :: tr') w -> Forall (fun a => ~ by_component a) tr -> by_component a -> a = Tick.
Proof.
  intros P St C comp x tr a tr' w R F B. apply run_split in R. destruct R as (w1 & R & R2).
  apply run_cons_inv in R2. destruct R2 as (w2 & S & _).
  assert (E : exists s, ph w1 = Starting s).
  { clear S. remember (launch C comp x) as w0 eqn:E0. induction R as [|w0 tr w1 b w3 R IH S]; [subst; simpl; eauto|].
    apply Forall_app in F. destruct F as [F1 F2]. inversion F2; subst. destruct (IH eq_refl F1) as [s Es].
    inversion S; subst; simpl in *; subst; eauto; tauto. }
  destruct E as [s E]. inversion S; subst; simpl in *; subst; try tauto; try discriminate; unfold selecting in *; simpl in *; discriminate.
Qed.

(** Two successive ticks: the first asked to be called again, at least the time it asked for has passed since, and the
    component went to sleep in between. *)
Theorem C42_next_tick : forall P St (C : component P St) comp x tr1 tr2 tr3 w,
  run C (launch C comp x) (tr1 ++ Tick :: tr2 ++ Tick :: tr3) w -> ~ In Tick tr2 ->
  (exists v, snd (tick C (state_after C (duplicate C comp) (given tr1))) = Ok (Some v)
     /\ (time_after tr1 + v <= time_after (tr1 ++ Tick :: tr2))%N)
  /\ exists a b, tr2 = a ++ Idle :: b /\ Forall (fun l => ~ by_component l) b.
Proof.
  intros P St C comp x tr1 tr2 tr3 w R NT.
  replace (tr1 ++ Tick :: tr2 ++ Tick :: tr3) with ((tr1 ++ Tick :: tr2) ++ Tick :: tr3) in R by (rewrite <- app_assoc; reflexivity).
  apply run_split in R. destruct R as (w1 & R & R2). apply run_cons_inv in R2. destruct R2 as (w2 & S & _).
  pose proof (tick_ok_run C comp x _ _ R) as T. pose proof (inv_run C comp x _ _ R) as I. inversion S; subst.
  - exfalso. destruct I as ((_ & F) & _). apply Forall_app in F. destruct F as [_ F]. inversion F. subst. apply H1. exact I.
  - unfold tick_ok in T. simpl in T. destruct T as [LT (a & b & E & F)]. apply last_tick_unique in LT; auto. split.
    + destruct LT as [[? _]|(v & D & K)]; [discriminate|]. exists v. split; auto. destruct I as (_ & _ & _ & N & _). simpl in N.
      injection D as ->. rewrite <- N. exact H.
    + clear -E F NT. revert a E. induction tr1 as [|y tr1 IH]; intros [|z a] E; simpl in E.
      * discriminate.
      * injection E as _ E. exists a, b. auto.
      * injection E as _ E. exfalso. subst b. apply Forall_app in F. destruct F as [_ F]. inversion F. subst. apply H1. exact I.
      * injection E as _ E. exact (IH a E).
Qed.

(** A failing tick ends the run with its error. *)
Theorem C42_failing_tick : forall P St (C : component P St) comp x tr tr' w e,
  run C (launch C comp x) (tr ++ Tick :: tr') w ->
  snd (tick C (state_after C (duplicate C comp) (given tr))) = Err e ->
  ph w = Returned (Err e) /\ Forall (fun a => ~ by_component a) tr'.
Proof.
  intros P St C comp x tr tr' w e R E. apply run_split in R. destruct R as (w1 & R & R2).
  apply run_cons_inv in R2. destruct R2 as (w2 & S & R2). apply (returned_run C w2 tr' w); auto.
  pose proof (inv_run C comp x _ _ R) as I.
  assert (G : forall s t, s = state_after C (duplicate C comp) (given tr) -> after_tick C s t = Returned (Err e)).
  { intros s t ->. destruct (after_tick_cases C (state_after C (duplicate C comp) (given tr)) t) as [(d & _ & [[_ K]|(v & _ & K)])|(e' & X & K)];
      rewrite E in K; try discriminate. injection K as <-. exact X. }
  inversion S; subst; cbn [ph]; apply G.
  - destruct I as ((-> & F) & _). assert (K : given tr = []).
    { clear -F. induction F as [|b tr Hb _ IH]; auto. destruct b; simpl in *; tauto. } rewrite K. reflexivity.
  - destruct I as (T & _). exact T.
Qed.

(** A component that sleeps past the time its last tick asked for can tick at once. *)
Theorem C42_due_tick_possible : forall P St (C : component P St) comp x tr1 tr2 tr3 v w,
  run C (launch C comp x) (tr1 ++ Tick :: tr2 ++ Idle :: tr3) w -> ~ In Tick tr2 -> Forall (fun l => ~ by_component l) tr3 ->
  snd (tick C (state_after C (duplicate C comp) (given tr1))) = Ok (Some v) ->
  (time_after tr1 + v <= now w)%N -> exists w', step C w Tick w'.
Proof.
  intros P St C comp x tr1 tr2 tr3 v w R N2 N3 E D.
  replace (tr1 ++ Tick :: tr2 ++ Idle :: tr3) with ((tr1 ++ Tick :: tr2) ++ Idle :: tr3) in R by (rewrite <- app_assoc; reflexivity).
  pose proof (tick_ok_run C comp x _ _ R) as T.
  assert (W : exists s d, ph w = Waiting s d).
  { apply run_split in R. destruct R as (w1 & _ & R2). apply run_cons_inv in R2. destruct R2 as (w2 & S & R2).
    assert (W2 : exists s d, ph w2 = Waiting s d) by (inversion S; subst; simpl; eauto). clear -R2 N3 W2.
    induction R2 as [|w2 tr w1 a w3 R IH S]; auto. apply Forall_app in N3. destruct N3 as [F1 F2]. inversion F2; subst.
    destruct (IH F1 W2) as (s & d & Es). inversion S; subst; simpl in *; subst; eauto; tauto. }
  destruct W as (s & d & W). unfold tick_ok in T. rewrite W in T. destruct T as [LT _].
  assert (d = Some (time_after tr1 + v)%N) as ->.
  { rewrite <- app_assoc in LT. simpl in LT. apply last_tick_unique in LT.
    - destruct LT as [[_ K]|(v' & -> & K)]; rewrite E in K; [discriminate|]. injection K as ->. reflexivity.
    - rewrite in_app_iff. simpl. intros [K|[K|K]]; [contradiction|discriminate|].
      rewrite Forall_forall in N3. exact (N3 _ K I). }
  destruct w as [p t ms l]. simpl in *. subst p. eexists. apply s_tick. exact D.
Qed.

Definition tick_comp : component P0 nat :=
  {| duplicate := fun s => s; on_command := fun s _ _ => (s, Ok tt); on_response := fun s _ _ => (s, Ok tt);
     on_log := fun s l => (s, Ok (Some l)); on_dataset := fun s _ => (s, Ok tt); on_alert := fun s _ => (s, Ok tt);
     on_task := fun s _ _ => (s, Ok tt); on_task_result := fun s _ _ => (s, Ok tt); on_notification := fun s _ => (s, Ok tt);
     tick := fun s => (S s, if Nat.eqb s 2 then Err (E_Other "late") else Ok (Some 10%N)) |}.
Example C42_case : exists w, run tick_comp (launch tick_comp 0 (wired None))
  [Tick; Idle; Clock 11; Tick; Idle; Clock 25; Tick] w /\ ph w = Returned (Err (E_Other "late")).
Proof. eexists. split; [repeat go|reflexivity]. Qed.

(** * C68: a stop command and blocked output *)

(** A stop command sent to a component should make it return whatever happens to its logs. It does not: when the
    output of the component is full and nobody reads it, the component stays in the [send] and never takes the command. *)
Definition keep : component P0 unit := default_component P0 unit.
Definition stop : message P0 := MCommand header_default (C_STOP_COMPONENT "me").

Lemma fill_output : forall n c, n <= c -> exists tr, run keep (launch keep tt (wired (Some c))) (Tick :: tr)
  (World (Polling tt None) 0 [] (Wired [] true (repeat (mk "l") n) (Some c) true)).
Proof.
  induction n as [|n IH]; intros c Hc.
  - exists []. repeat go.
  - destruct (IH c) as [tr R]; [lia|]. exists (tr ++ [ArriveLog (mk "l"); TakeLog (mk "l"); Forward (mk "l")]).
    rewrite app_comm_cons. eapply run_app; [exact R|].
    eapply run_cons; [apply s_arrive_log|]. eapply run_cons; [eapply s_take_log; [reflexivity|reflexivity]|].
    eapply run_cons; [apply s_forward; [reflexivity|simpl; apply Nat.ltb_lt; rewrite repeat_length; lia]|].
    simpl. rewrite repeat_cons. apply run_nil.
Qed.

Lemma blocked_step : forall q s d l t ms o c a w', step keep (World (Sending s d l) t ms (Wired q true o (Some c) true)) a w' \/
    step keep (World (Sending s d l) t ms (Wired q false o (Some c) true)) a w' -> length o = c ->
  (forall x, a <> Consume x) -> a <> CloseOut ->
  exists q' i t' ms', w' = World (Sending s d l) t' ms' (Wired q' i o (Some c) true).
Proof.
  intros q s d l t ms o c a w' [S|S] L NC NO; inversion S; subst; eauto; try (exfalso; eapply NC; reflexivity); try congruence;
    simpl in *; try discriminate; try (apply Nat.ltb_lt in H5 || apply Nat.ltb_lt in H6; lia); unfold selecting in *; simpl in *; try discriminate;
    match goal with H : Nat.ltb _ _ = true |- _ => apply Nat.ltb_lt in H; lia end.
Qed.

Theorem C131_stop_under_blocked_output_refuted : forall c,
  exists tr w, run keep (launch keep tt (wired (Some c))) tr w /\ In stop (arrived_msgs tr)
    /\ forall tr' w', run keep w tr' w' -> (forall l, ~ In (Consume l) tr') -> ~ In CloseOut tr' -> ~ has_returned w' /\ ~ In (TakeMsg stop) tr'.
Proof.
  intro c. destruct (fill_output c c (le_n c)) as [tr R].
  exists ((Tick :: tr) ++ [ArriveLog (mk "l"); TakeLog (mk "l"); ArriveMsg stop]). eexists. splits.
  - eapply run_app; [exact R|]. eapply run_cons; [apply s_arrive_log|]. eapply run_cons; [eapply s_take_log; reflexivity|].
    eapply run_cons; [apply s_arrive_msg; simpl; unfold msg_capacity; lia|]. apply run_nil.
  - unfold arrived_msgs. rewrite flat_map_app. apply in_or_app. right. left. reflexivity.
  - intros tr' w' R' NC NO.
    assert (B : exists q i t ms, w' = World (Sending tt None (mk "l")) t ms (Wired q i (repeat (mk "l") c) (Some c) true) /\ ~ In (TakeMsg stop) tr').
    { simpl in R'. remember (World _ _ _ _) as w eqn:Ew in R'. induction R' as [|w tr' w1 a w2 R' IH S].
      - subst w. do 4 eexists. split; [reflexivity|intros []].
      - destruct IH as (q & i & t & ms & -> & NT); auto.
        + intros l Hl. apply (NC l). apply in_or_app. auto.
        + intro Hl. apply NO. apply in_or_app. auto.
        + assert (E : exists q' i' t' ms', w2 = World (Sending tt None (mk "l")) t' ms' (Wired q' i' (repeat (mk "l") c) (Some c) true)).
          { eapply blocked_step with (q := q) (a := a) (t := t) (ms := ms).
            - destruct i; [left|right]; exact S.
            - apply repeat_length.
            - intros x ->. apply (NC x). apply in_or_app. right. left. reflexivity.
            - intros ->. apply NO. apply in_or_app. right. left. reflexivity. }
          destruct E as (q' & i' & t' & ms' & ->). do 4 eexists. split; [reflexivity|]. rewrite in_app_iff. intros [K|[K|[]]]; [exact (NT K)|].
          subst a. inversion S. }
    destruct B as (q & i & t & ms & -> & NT). split; [|exact NT]. intros [r X]. discriminate X.
Qed.

(** What does hold: the commands are taken in order, so a component that goes on taking messages takes the stop command
    after those that came before it, and returns. *)
Theorem C68_stop_taken_in_turn : forall P St (C : component P St) comp x tr w before m,
  run C (launch C comp x) tr w -> arrived_msgs tr = before ++ [m] -> is_stop m ->
  length before < length (taken_msgs tr) -> ph w = Returned (Ok tt).
Proof.
  intros P St C comp x tr w before m R A ST L. destruct (inv_run C comp x tr w R) as (_ & _ & _ & _ & M).
  assert (T : taken_msgs tr = before ++ [m]).
  { rewrite A in M. assert (length (msgs w) = 0) by (apply (f_equal (@length _)) in M; rewrite !app_length in M; simpl in M; lia).
    destruct (msgs w); [|discriminate]. rewrite app_nil_r in M. auto. }
  assert (I : In (TakeMsg m) tr).
  { clear -T. assert (K : In m (taken_msgs tr)) by (rewrite T; apply in_or_app; right; left; reflexivity).
    apply in_flat_map in K. destruct K as (a & K & Ka). destruct a; simpl in Ka; try contradiction. destruct Ka as [->|[]]. exact K. }
  apply in_split in I. destruct I as (tr1 & tr2 & ->). eapply C41_stop_stops; eauto.
Qed.

(** * C70: a component without log channels *)

(** A component runs a log it was given once. When [set_log_channel] was never called this fails: the forwarded log
    comes back, for ever. *)
Theorem C133_processed_once_refuted : forall n, exists tr w,
  run keep (launch keep tt (Looped [])) tr w /\ arrived_msgs tr = [MLog (mk "l")] /\ taken_logs tr = repeat (mk "l") n.
Proof.
  intro n. assert (B : exists tr, run keep (launch keep tt (Looped [])) tr (World (Polling tt None) 0 [] (Looped [mk "l"]))
      /\ arrived_msgs tr = [MLog (mk "l")] /\ taken_logs tr = repeat (mk "l") n).
  { induction n as [|n (tr & R & A & T)].
    - exists [ArriveMsg (MLog (mk "l")); Tick; TakeMsg (MLog (mk "l")); Forward (mk "l")]. splits; [repeat go|reflexivity|reflexivity].
    - exists (tr ++ [TakeLog (mk "l"); Forward (mk "l")]). splits.
      + eapply run_app; [exact R|]. repeat go.
      + unfold arrived_msgs in *. rewrite flat_map_app, A. reflexivity.
      + unfold taken_logs in *. rewrite flat_map_app, T. symmetry. apply (repeat_cons n (mk "l")). }
  destruct B as (tr & R & A & T). eauto.
Qed.

(** Worse: two logs given to such a component as messages block it for ever; it never takes the stop command. *)
Theorem C133_self_deadlock_refuted : exists tr w,
  run keep (launch keep tt (Looped [])) tr w /\ In stop (arrived_msgs tr)
  /\ forall tr' w', run keep w tr' w' -> ~ has_returned w' /\ Forall (fun a => ~ by_component a) tr'.
Proof.
  exists [ArriveMsg (MLog (mk "a")); ArriveMsg (MLog (mk "b")); ArriveMsg stop; Tick; TakeMsg (MLog (mk "a")); Forward (mk "a");
    TakeMsg (MLog (mk "b"))]. eexists. splits; [repeat go|simpl; auto|].
  intros tr' w' R.
  assert (B : exists t ms, w' = World (Sending tt None (mk "b")) t ms (Looped [mk "a"]) /\ Forall (fun a => ~ by_component a) tr').
  { simpl in R. remember (World _ _ _ _) as w eqn:Ew in R. induction R as [|w tr' w1 a w2 R IH S].
    - subst w. do 2 eexists. split; [reflexivity|constructor].
    - destruct (IH Ew) as (t & ms & -> & F). inversion S; subst; unfold selecting in *; simpl in *; try discriminate.
      + do 2 eexists. split; [reflexivity|]. apply Forall_app. auto.
      + do 2 eexists. split; [reflexivity|]. apply Forall_app. auto. }
  destruct B as (t & ms & -> & F). split; [|exact F]. intros [r X]. discriminate X.
Qed.

(** With the log channels set, the forwarded logs do not come back: what is taken is what others sent. *)
Theorem C70_processed_once : forall P St (C : component P St) comp c tr w,
  run C (launch C comp (wired c)) tr w -> exists rest, arrived_logs tr = taken_logs tr ++ rest.
Proof. intros P St C comp c tr w R. destruct (C40_forwards_exactly_the_kept_logs P St C comp c tr w R) as (A & _). eauto. Qed.

(** * C69: ticks under load *)

(** A tick that is due should be performed. Under constant traffic it is not: for every delay there is a history in which the
    component takes messages all the time, the tick is overdue by that delay, and the component has not ticked again ... *)
Theorem C132_due_tick_performed_refuted : forall n, exists tr w,
  run tick_comp (launch tick_comp 0 (wired None)) (Tick :: tr) w /\ ~ In Tick tr /\ (10 + N.of_nat n <= now w)%N
  /\ length (taken_msgs tr) = n.
Proof.
  intro n. set (m := MTask (P := P0) header_default (Task 0 0 "" 0 TD_UPDATE_GEOIP)).
  assert (B : exists tr, run tick_comp (launch tick_comp 0 (wired None)) (Tick :: tr)
      (World (Polling 1 (Some 10%N)) (10 + N.of_nat n) [] (wired None)) /\ ~ In Tick tr /\ length (taken_msgs tr) = n).
  { induction n as [|n (tr & R & A & T)].
    - exists [Clock 10]. splits; [repeat go|simpl; intuition congruence|reflexivity].
    - exists (tr ++ [Clock (10 + N.of_nat (S n)); ArriveMsg m; TakeMsg m]). splits.
      + rewrite app_comm_cons. eapply run_app; [exact R|]. eapply run_cons; [apply s_clock; lia|].
        eapply run_cons; [apply s_arrive_msg; simpl; unfold msg_capacity; lia|].
        eapply run_cons; [eapply s_take_msg; reflexivity|]. apply run_nil.
      + rewrite in_app_iff. simpl. intuition congruence.
      + unfold taken_msgs in *. rewrite flat_map_app, app_length, T. simpl. lia. }
  destruct B as (tr & R & A & T). do 2 eexists. splits; [exact R|exact A|simpl; lia|exact T].
Qed.

(** ... and this is not one unlucky schedule: as long as the component finds something to take, whenever it looks,
    it does not tick, whatever the deadline. *)
Theorem C69_no_tick_while_busy : forall P St (C : component P St) comp x tr1 tr2 w,
  run C (launch C comp x) (tr1 ++ Tick :: tr2) w -> ~ In Idle tr2 -> ~ In Tick tr2.
Proof.
  intros P St C comp x tr1 tr2 w R NI NT.
  assert (K : exists a b, tr2 = a ++ Tick :: b /\ ~ In Tick a).
  { clear -NT. induction tr2 as [|y tr2 IH]; [destruct NT|]. assert (D : y = Tick \/ y <> Tick) by (destruct y; (left; reflexivity) || (right; discriminate)).
    destruct D as [->|D]; [exists [], tr2; auto|]. destruct NT as [NT|NT]; [contradiction|].
    destruct (IH NT) as (a & b & -> & N). exists (y :: a), b. split; auto. intros [K|K]; auto. }
  destruct K as (a & b & -> & N). destruct (C42_next_tick P St C comp x tr1 a b w R N) as (_ & c & d & -> & _).
  apply NI. rewrite <- app_assoc. apply in_or_app. right. left. reflexivity.
Qed.

(** What does hold: a component that found nothing to take can tick as soon as the tick is due. *)
Theorem C69_due_tick_possible : forall P St (C : component P St) comp x tr1 tr2 tr3 v w,
  run C (launch C comp x) (tr1 ++ Tick :: tr2 ++ Idle :: tr3) w -> ~ In Tick tr2 -> Forall (fun l => ~ by_component l) tr3 ->
  snd (tick C (state_after C (duplicate C comp) (given tr1))) = Ok (Some v) ->
  (time_after tr1 + v <= now w)%N -> exists w', step C w Tick w'.
Proof. exact C42_due_tick_possible. Qed.

Print Assumptions C40_forwards_exactly_the_kept_logs.
Print Assumptions C40_errors_do_not_stop.
Print Assumptions C40_default_keeps_all.
Print Assumptions C40_progress.
Print Assumptions C40_bounded_work.
Print Assumptions C41_stop_stops.
Print Assumptions C41_only_reasons.
Print Assumptions C41_input_gone.
Print Assumptions C41_output_gone.
Print Assumptions C42_first_tick.
Print Assumptions C42_next_tick.
Print Assumptions C42_failing_tick.
Print Assumptions C42_due_tick_possible.
Print Assumptions C131_stop_under_blocked_output_refuted.
Print Assumptions C68_stop_taken_in_turn.
Print Assumptions C132_due_tick_performed_refuted.
Print Assumptions C69_no_tick_while_busy.
Print Assumptions C133_processed_once_refuted.
Print Assumptions C133_self_deadlock_refuted.
Print Assumptions C70_processed_once.
