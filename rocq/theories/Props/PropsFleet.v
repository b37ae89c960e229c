(** C154-C158: several components connected by log channels. *)
From Coq Require Import String NArith List Bool Lia Permutation.
From Verif Require Import Base.Outcome Base.Arith Model.Field Model.Log Model.Command Model.Err Model.Component Model.Fleet
  Spec.ComponentSpec Spec.FleetSpec Proofs.ComponentP Proofs.FleetP.
Import ListNotations.
Local Open Scope list_scope.

(** * C154: channels between components *)
(** However components are connected (no component reads from the channel it writes to), whatever happens and whenever we look:
    the logs received from a channel, by whomever, are the first of those sent into it, by whomever, in the same order. *)
Theorem C154_fifo : forall P St size (C : nat -> component P St) source target comp chans tr w k,
  (forall i, i < size -> source i <> target i) ->
  frun size C source target (spawn C comp chans) tr w ->
  queue (chans k) ++ sent target k tr = received source k tr ++ queue (channels w k).
Proof. intros P St size C source target comp chans tr w k A R. exact (channel_run size C source target A _ tr w k R). Qed.
(** Each of them was received once: by the outside world or by exactly one of the components that read from the channel. *)
Theorem C154_exactly_once : forall P St size (C : nat -> component P St) source target comp chans tr w k,
  frun size C source target (spawn C comp chans) tr w ->
  Permutation (received source k tr)
    (got_out k tr ++ flat_map (fun i => if Nat.eqb (source i) k then taken_logs (own i tr) else []) (seq 0 size))
  /\ Permutation (sent target k tr)
    (put_in k tr ++ flat_map (fun i => if Nat.eqb (target i) k then forwarded (own i tr) else []) (seq 0 size)).
Proof. intros P St size C source target comp chans tr w k R. split; [exact (received_parts _ _ _ _ _ _ _ k R)|exact (sent_parts _ _ _ _ _ _ _ k R)]. Qed.
(** Each component forwards exactly what its own handler kept of what it was given, in order, whatever the others do. *)
Theorem C154_each_component : forall P St size (C : nat -> component P St) source target comp chans tr w i,
  i < size -> frun size C source target (spawn C comp chans) tr w ->
  kept (C i) (duplicate (C i) (comp i)) (given (own i tr))
    = forwarded (own i tr) ++ match thread (workers w i) with Sending _ _ l => [l] | _ => [] end ++ undeliverable (own i tr)
  /\ arrived_msgs (own i tr) = taken_msgs (own i tr) ++ inbox (workers w i).
Proof.
  intros P St size C source target comp chans tr w i L R. destruct (worker_run size C source target comp chans tr w i L R) as (_ & K & _ & _ & M).
  split; [symmetry; exact K|exact M].
Qed.

(** * C155: pipelines *)
(** A pipeline of any number of stages, each with any number of duplicates: whatever happens and whenever we look, what
    came out, with what still waits in the last channel or is on its way, is what the stages, one after the other, let through of
    what was put in: nothing is invented or comes out twice. *)
Theorem C155_nothing_else : forall P St size (C : nat -> component P St) stage depth f comp caps tr w,
  pipeline size C stage depth f -> Forall no_log_message tr ->
  frun size C stage (fun i => S (stage i)) (spawn C comp (pipes depth caps)) tr w ->
  exists rest, Permutation (keep (through f depth) (put_in 0 tr)) (got_out depth tr ++ queue (channels w depth) ++ rest).
Proof. intros P St size C stage depth f comp caps tr w PL F R. eexists. exact (pipe_result size depth C stage f PL comp caps tr w R F). Qed.
(** When nothing is under way (every component waits and no log is in a channel but the last), nothing is missing either. *)
Theorem C155_nothing_lost : forall P St size (C : nat -> component P St) stage depth f comp caps tr w,
  pipeline size C stage depth f -> Forall no_log_message tr ->
  frun size C stage (fun i => S (stage i)) (spawn C comp (pipes depth caps)) tr w ->
  (forall k, k < depth -> queue (channels w k) = []) -> (forall i, i < size -> exists s d, thread (workers w i) = Waiting s d) ->
  Permutation (keep (through f depth) (put_in 0 tr)) (got_out depth tr ++ queue (channels w depth)).
Proof.
  intros P St size C stage depth f comp caps tr w PL F R Q W. rewrite (pipe_result size depth C stage f PL comp caps tr w R F).
  enough (U : under_way size stage f tr w depth = []) by (rewrite U, app_nil_r; reflexivity). apply (nothing_under_way _ _ _ comp caps). intros k L. split; [|auto]. unfold held. apply seg_nil. intros i I. apply in_seq in I.
  destruct (Nat.eqb_spec (stage i) k); [|reflexivity]. destruct (W i ltac:(lia)) as (s & d & E).
  pose proof (worker_run size C stage (fun i => S (stage i)) comp (pipes depth caps) tr w i ltac:(lia) R) as I'.
  rewrite (inv_running (C i) _ _ _ I'); [unfold in_hand; simpl; rewrite E; reflexivity|]. intros [r X]. simpl in X. congruence.
Qed.

(** * C156: with one component per stage the order is kept *)
Theorem C156_order : forall P St size (C : nat -> component P St) stage depth f comp caps tr w,
  pipeline size C stage depth f -> (forall i j, i < size -> j < size -> stage i = stage j -> i = j) -> Forall no_log_message tr ->
  frun size C stage (fun i => S (stage i)) (spawn C comp (pipes depth caps)) tr w ->
  exists rest, keep (through f depth) (put_in 0 tr) = got_out depth tr ++ queue (channels w depth) ++ rest.
Proof. intros P St size C stage depth f comp caps tr w PL O F R. eexists. exact (pipe_result_one size depth C stage f PL comp caps tr w O R F). Qed.

(** * C157: closing the input *)
(** Once the outside world has dropped its sender, and provided it goes on listening, sends no stop command and no tick
    fails: when no component can go on and the last channel has room, every component has returned and everything that was put in and
    let through has been delivered, in order if the stages have one component each. *)
Theorem C157_shutdown : forall P St size (C : nat -> component P St) stage depth f comp caps tr w,
  pipeline size C stage depth f -> (forall i s e, snd (tick (C i) s) <> Err e) -> (forall k, can_hold (caps k)) ->
  Forall no_log_message tr -> Forall (fun e => ~ stopped e) tr -> ~ In (DropReceiver depth) tr ->
  frun size C stage (fun i => S (stage i)) (spawn C comp (pipes depth caps)) tr w ->
  outside_sends (channels w 0) = false ->
  (forall e w', inside e -> ~ fstep size C stage (fun i => S (stage i)) w e w') -> has_room (channels w depth) = true ->
  (forall i, i < size -> exists r, thread (workers w i) = Returned r)
  /\ Permutation (keep (through f depth) (put_in 0 tr)) (got_out depth tr ++ queue (channels w depth))
  /\ ((forall i j, i < size -> j < size -> stage i = stage j -> i = j) ->
      keep (through f depth) (put_in 0 tr) = got_out depth tr ++ queue (channels w depth)).
Proof.
  intros P St size C stage depth f comp caps tr w PL T CH F NS ND R O ST RM.
  destruct (shutdown size depth C stage f PL comp caps T tr w R ST O CH RM NS ND) as [D U]. splits.
  - exact D.
  - rewrite (pipe_result size depth C stage f PL comp caps tr w R F), U, app_nil_r. reflexivity.
  - intro S. rewrite (pipe_result_one size depth C stage f PL comp caps tr w S R F), U, app_nil_r. reflexivity.
Qed.
(** No component returns before: as long as the outside world holds its sender, none of the first stage does; and one of a later stage
    only after all of the stage before it were dropped and all that they sent was taken. *)
Theorem C157_not_before : forall P St size (C : nat -> component P St) stage depth f comp caps tr w i r,
  pipeline size C stage depth f -> (forall i s e, snd (tick (C i) s) <> Err e) ->
  Forall (fun e => ~ stopped e) tr -> ~ In (DropReceiver depth) tr ->
  frun size C stage (fun i => S (stage i)) (spawn C comp (pipes depth caps)) tr w -> i < size -> thread (workers w i) = Returned r ->
  outside_sends (channels w (stage i)) = false
  /\ (forall j, j < size -> S (stage j) = stage i -> attached (workers w j) = false)
  /\ queue (channels w (stage i)) = [].
Proof.
  intros P St size C stage depth f comp caps tr w i r PL T NS ND R L E.
  destruct (orderly_run size depth C stage f PL comp caps T tr w R NS ND) as (_ & I). destruct (I i L) as (_ & B & _).
  destruct (B (ex_intro _ r E)) as [B1 B2]. apply (sender_spec size C stage comp caps T) in B1. destruct B1 as [B1 B3]. splits; auto.
Qed.

(** * C158: the components of a pipeline come to rest *)
(** Left to themselves, from any state, they do a bounded number of steps, apart from ticks. *)
Theorem C158_bounded : forall P St size (C : nat -> component P St) stage depth f w tr w',
  pipeline size C stage depth f -> frun size C stage (fun i => S (stage i)) w tr w' -> Forall inside tr ->
  length tr <= 4 * depth * pending size depth w + (4 * depth + 5) * size + 2 * tick_count tr.
Proof.
  intros P St size C stage depth f w tr w' PL R F. pose proof (work_bound size depth C stage f PL w tr w' R F).
  pose proof (potential_bound size depth stage w). lia.
Qed.

(** ** Non-vacuity: two duplicates in front of a filter *)
Definition P0 : payloads := Payloads unit unit unit unit.
Definition nonempty (l : log) : option log := if String.eqb (log_message l) "" then None else Some l.
Definition filter_comp : component P0 unit :=
  Comp (fun s => s) (fun s _ _ => (s, Ok tt)) (fun s _ _ => (s, Ok tt)) (fun s l => (s, Ok (nonempty l))) (fun s _ => (s, Ok tt))
    (fun s _ => (s, Ok tt)) (fun s _ _ => (s, Ok tt)) (fun s _ _ => (s, Ok tt)) (fun s _ => (s, Ok tt)) (fun s => (s, Ok None)).
Definition C3 (i : nat) : component P0 unit := if Nat.ltb i 2 then default_component P0 unit else filter_comp.
Definition stage3 (i : nat) : nat := if Nat.ltb i 2 then 0 else 1.
Definition f3 (k : nat) : log -> option log := if Nat.eqb k 0 then Some else nonempty.
Lemma pipeline3 : pipeline 3 C3 stage3 2 f3.
Proof.
  constructor.
  - intros i L. unfold stage3. destruct (Nat.ltb i 2); lia.
  - intros k L. destruct k as [|[|k]]; [exists 0|exists 2|lia]; split; auto.
  - intros i L s l. unfold C3, stage3, f3. destruct (Nat.ltb i 2); simpl; [reflexivity|]. unfold react_log. simpl. unfold nonempty. destruct (String.eqb (log_message l) ""); reflexivity.
Qed.
Definition mk (s : string) : log := log_new s 0 "o".
Lemma frun_cons {P St} size (C : nat -> component P St) so ta w e w1 tr w2 : fstep size C so ta w e w1 -> frun size C so ta w1 tr w2 -> frun size C so ta w (e :: tr) w2.
Proof.
  intros S R. induction R as [v|v tr v1 a v2 R IH S'].
  - exact (frun_snoc _ _ _ _ w [] w e v (frun_nil _ _ _ _ _) S).
  - exact (frun_snoc _ _ _ _ w (e :: tr) v1 a v2 (IH S) S').
Qed.
(** The first thing the component can do: as a function *)
Definition move (C : component P0 unit) (w : world P0 unit) : option (label P0 * world P0 unit) :=
  match ph w with
  | Starting s => Some (Tick, World (after_tick C s (now w)) (now w) (msgs w) (logs w))
  | Sending s d l => if out_gone (logs w) then None else if out_room (logs w) then Some (Forward l, World (Polling s d) (now w) (msgs w) (push_out l (logs w))) else None
  | _ => match selecting w with
         | Some (s, d) => match pop_log (logs w) with
                          | Some (l, x) => Some (TakeLog l, World (process_log C s d l) (now w) (msgs w) x)
                          | None => if logs_disconnected (logs w) then Some (LogsGone, World (Returned (Ok tt)) (now w) (msgs w) (logs w)) else None
                          end
         | None => None
         end
  end.
Lemma move_ok C w a w' : move C w = Some (a, w') -> step C w a w'.
Proof.
  destruct w as [p t ms x]. unfold move. cbn [ph now msgs logs]. intro H.
  assert (M : forall y, y = World p t ms x -> match selecting y with
         | Some (s, d) => match pop_log x with
                          | Some (l, x) => Some (TakeLog l, World (process_log C s d l) t ms x)
                          | None => if logs_disconnected x then Some (LogsGone, World (Returned (Ok tt)) t ms x) else None
                          end
         | None => None
         end = Some (a, w') -> step C (World p t ms x) a w').
  { intros y -> E. destruct (selecting _) as [[s d]|] eqn:S; [|discriminate]. destruct (pop_log x) as [[l x']|] eqn:Q.
    - inversion E; subst. eapply s_take_log; eauto.
    - destruct (logs_disconnected x) eqn:D; [|discriminate]. inversion E; subst. eapply s_logs_gone; eauto. }
  destruct p as [s|s d|s d|s d l|r]; try (exact (M _ eq_refl H)).
  - inversion H; subst. constructor.
  - destruct (out_gone x) eqn:G; [discriminate|]. destruct (out_room x) eqn:R; [|discriminate]. inversion H; subst. constructor; auto.
Qed.
Inductive doing := Go (i : nat) | In0 (l : log) | Out2 | Drop0 | Gone (i : nat).
Definition act (w : fleet P0 unit) (d : doing) : option (event P0 * fleet P0 unit) :=
  match d with
  | Go i => if Nat.ltb i 3 then match move (C3 i) (view 3 stage3 (fun i => S (stage3 i)) w i) with
      | Some (a, World p _ ms (Wired q _ o _ _)) => if own_label a then Some (Work i a, put stage3 (fun i => S (stage3 i)) w i p ms q o) else None
      | _ => None end else None
  | In0 l => if outside_sends (channels w 0) && has_receiver 3 stage3 w 0 && has_room (channels w 0)
      then Some (SendLog 0 l, Fleet (time w) (workers w) (set (channels w) 0 (with_queue (queue (channels w 0) ++ [l]) (channels w 0)))) else None
  | Out2 => if outside_receives (channels w 2) then match queue (channels w 2) with l :: q => Some (Receive 2 l, Fleet (time w) (workers w) (set (channels w) 2 (with_queue q (channels w 2)))) | [] => None end else None
  | Drop0 => Some (DropSender 0, Fleet (time w) (workers w)
        (set (channels w) 0 (Channel (queue (channels w 0)) (capacity (channels w 0)) false (outside_receives (channels w 0)))))
  | Gone i => if Nat.ltb i 3 then match thread (workers w i) with
      | Returned _ => if attached (workers w i) then Some (Detach i, Fleet (time w) (set (workers w) i (Worker (thread (workers w i)) (inbox (workers w i)) false)) (channels w)) else None
      | _ => None end else None
  end.
Lemma act_ok w d e w' : act w d = Some (e, w') -> fstep 3 C3 stage3 (fun i => S (stage3 i)) w e w'.
Proof.
  destruct d as [i|l| | |i]; unfold act; intro H.
  - destruct (Nat.ltb_spec i 3) as [L|]; [|discriminate]. destruct (move _ _) as [[a [p t ms [|q b o c r]]]|] eqn:M; try discriminate.
    destruct (own_label a) eqn:O; [|discriminate]. apply move_ok in M. inversion H; subst. eapply f_work; eauto.
  - destruct (outside_sends _) eqn:A; [|discriminate]. destruct (has_receiver _ _ _ _) eqn:B; [|discriminate]. destruct (has_room _) eqn:D; [|discriminate].
    inversion H; subst. apply f_send_log; auto.
  - destruct (outside_receives _) eqn:A; [|discriminate]. destruct (queue _) as [|l q] eqn:Q; [discriminate|]. inversion H; subst. apply f_receive; auto.
  - inversion H; subst. constructor.
  - destruct (Nat.ltb_spec i 3) as [L|]; [|discriminate]. destruct (thread _) eqn:T; try discriminate. destruct (attached _) eqn:A; [|discriminate].
    inversion H; subst. rewrite <- T. eapply f_detach; eauto.
Qed.
Fixpoint acts (w : fleet P0 unit) (ds : list doing) : option (list (event P0) * fleet P0 unit) :=
  match ds with
  | [] => Some ([], w)
  | d :: r => match act w d with
      | Some (e, w1) => match acts w1 r with Some (tr, w2) => Some (e :: tr, w2) | None => None end
      | None => None end
  end.
Lemma acts_ok ds : forall w tr w', acts w ds = Some (tr, w') -> frun 3 C3 stage3 (fun i => S (stage3 i)) w tr w'.
Proof.
  induction ds as [|d ds IH]; simpl; intros w tr w' H; [inversion H; subst; constructor|].
  destruct (act w d) as [[e w1]|] eqn:A; [|discriminate]. destruct (acts w1 ds) as [[tr1 w2]|] eqn:B; [|discriminate]. inversion H; subst.
  eapply frun_cons; [eapply act_ok; eauto|eauto].
Qed.
Definition start3 : fleet P0 unit := spawn C3 (fun _ => tt) (pipes 2 (fun _ => Some 2)).
Definition story3 : list doing := let a := mk "a" in let b := mk "" in let c := mk "c" in
  [Go 0; Go 1; Go 2; In0 a; Go 0; In0 b; Go 1; In0 c; Go 1; Go 1; Go 1; Go 2; Drop0; Go 2; Go 2; Out2;
   Go 0; Go 0; Gone 0; Go 1; Gone 1; Go 2; Go 2; Go 2; Gone 2].
Definition history3 : list (event P0) := match acts start3 story3 with Some (tr, _) => tr | None => [] end.
Definition end3 : fleet P0 unit := match acts start3 story3 with Some (_, w) => w | None => start3 end.
Lemma all_gone {P St} size (C : nat -> component P St) so ta w : (forall i, i < size -> exists r, thread (workers w i) = Returned r /\ attached (workers w i) = false) ->
  forall e w', inside e -> ~ fstep size C so ta w e w'.
Proof.
  intros G e w' I S. destruct S as [w i a p t ms q b o c r L O S|w i m|w j l|w j l q R Q|w j|w j|w t|w i r0 L D A]; try destruct I.
  - destruct (G i L) as (r' & E & _). unfold view in S. rewrite E in S.
    destruct (returned_step _ _ _ _ r' (eq_refl : ph (World (Returned r') _ _ _) = _) S) as [_ X]. apply X, own_by, O.
  - destruct (G i L) as (_ & _ & X). congruence.
Qed.
(** The hypotheses of C157 (and with it C154, C155) are met; the logs "a" and "c" come out, "c" first. *)
Example C157_case :
  frun 3 C3 stage3 (fun i => S (stage3 i)) (spawn C3 (fun _ => tt) (pipes 2 (fun _ => Some 2))) history3 end3
  /\ history3 = (let a := mk "a" in let b := mk "" in let c := mk "c" in
       [Work 0 Tick; Work 1 Tick; Work 2 Tick; SendLog 0 a; Work 0 (TakeLog a); SendLog 0 b; Work 1 (TakeLog b); SendLog 0 c; Work 1 (Forward b);
        Work 1 (TakeLog c); Work 1 (Forward c); Work 2 (TakeLog b); DropSender 0; Work 2 (TakeLog c); Work 2 (Forward c); Receive 2 c;
        Work 0 (Forward a); Work 0 LogsGone; Detach 0; Work 1 LogsGone; Detach 1; Work 2 (TakeLog a); Work 2 (Forward a); Work 2 LogsGone; Detach 2])
  /\ put_in 0 history3 = [mk "a"; mk ""; mk "c"] /\ got_out 2 history3 = [mk "c"] /\ queue (channels end3 2) = [mk "a"]
  /\ has_room (channels end3 2) = true /\ outside_sends (channels end3 0) = false
  /\ (forall e w', inside e -> ~ fstep 3 C3 stage3 (fun i => S (stage3 i)) end3 e w')
  /\ Forall no_log_message history3 /\ Forall (fun e => ~ stopped e) history3 /\ ~ In (DropReceiver 2) history3.
Proof.
  assert (H : history3 = (let a := mk "a" in let b := mk "" in let c := mk "c" in
       [Work 0 Tick; Work 1 Tick; Work 2 Tick; SendLog 0 a; Work 0 (TakeLog a); SendLog 0 b; Work 1 (TakeLog b); SendLog 0 c; Work 1 (Forward b);
        Work 1 (TakeLog c); Work 1 (Forward c); Work 2 (TakeLog b); DropSender 0; Work 2 (TakeLog c); Work 2 (Forward c); Receive 2 c;
        Work 0 (Forward a); Work 0 LogsGone; Detach 0; Work 1 LogsGone; Detach 1; Work 2 (TakeLog a); Work 2 (Forward a); Work 2 LogsGone; Detach 2])).
  { vm_compute. reflexivity. }
  splits.
  - apply (acts_ok story3). unfold history3, end3. change (spawn C3 (fun _ => tt) (pipes 2 (fun _ => Some 2))) with start3.
    destruct (acts start3 story3) as [[tr w]|] eqn:E; [reflexivity|]. exfalso. unfold history3 in H. rewrite E in H. discriminate H.
  - exact H.
  - rewrite H. reflexivity.
  - rewrite H. reflexivity.
  - vm_compute. reflexivity.
  - vm_compute. reflexivity.
  - vm_compute. reflexivity.
  - apply all_gone. intros i L. exists (Ok tt). destruct i as [|[|[|i]]]; [vm_compute; split; reflexivity..|lia].
  - rewrite H. cbv zeta. repeat constructor.
  - rewrite H. cbv zeta. repeat constructor; intros (i & m & X & _); discriminate X.
  - rewrite H. cbv zeta. simpl. intuition discriminate.
Qed.
Print Assumptions C154_fifo.
Print Assumptions C154_exactly_once.
Print Assumptions C154_each_component.
Print Assumptions C155_nothing_else.
Print Assumptions C155_nothing_lost.
Print Assumptions C156_order.
Print Assumptions C157_shutdown.
Print Assumptions C157_not_before.
Print Assumptions C158_bounded.
