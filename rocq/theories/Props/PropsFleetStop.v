(** C194: stopping some of the components of a pipeline. *)
From Coq Require Import String NArith List Bool Lia Permutation.
From Verif Require Import Base.Outcome Base.Arith Model.Field Model.Log Model.Command Model.Err Model.Component Model.Fleet
  Spec.ComponentSpec Spec.FleetSpec Proofs.ComponentP Proofs.FleetP Proofs.FleetStopP Props.PropsFleet.
Import ListNotations.
Local Open Scope list_scope.

(** * C194 *)
(** Components may be sent stop commands, and their ticks may fail, at any moment: as long as each stage keeps one that has not returned,
    and the outside world goes on listening, no component ever finds nobody to send a log to. *)
Theorem C194_none_refused : forall P St size (C : nat -> component P St) stage depth f comp caps tr w,
  pipeline size C stage depth f ->
  frun size C stage (fun i => S (stage i)) (spawn C comp (pipes depth caps)) tr w ->
  ~ In (DropReceiver depth) tr ->
  (forall k, k < depth -> exists i, i < size /\ stage i = k /\ forall r, thread (workers w i) <> Returned r) ->
  forall i l, i < size -> ~ In (Work i (SendFailed l)) tr.
Proof.
  intros P St size C stage depth f comp caps tr w PL R ND ST i l L I.
  assert (U : undeliverable (own i tr) = []).
  { eapply (all_delivered size depth C stage f PL comp caps tr w R ND); [|exact L]. intros k Lk. destruct (ST k Lk) as (j & Lj & E & N). exists j.
    splits; auto. intros [r X]. exact (N r X). }
  assert (X : In l (undeliverable (own i tr))); [|rewrite U in X; destruct X].
  unfold undeliverable, own. apply in_flat_map. exists (SendFailed l). split; [|left; reflexivity]. apply in_flat_map. exists (Work i (SendFailed l)).
  split; [exact I|]. simpl. rewrite Nat.eqb_refl. left. reflexivity.
Qed.
(** And when no component can go on and the last channel has room, everything that was put in and let through has been delivered,
    each log once, though some of the components that were there are gone: their share was done by the others. No component that
    is left is stuck: each waits for more. *)
Theorem C194_others_take_over : forall P St size (C : nat -> component P St) stage depth f comp caps tr w,
  pipeline size C stage depth f -> (forall k, can_hold (caps k)) -> Forall no_log_message tr -> ~ In (DropReceiver depth) tr ->
  frun size C stage (fun i => S (stage i)) (spawn C comp (pipes depth caps)) tr w ->
  (forall k, k < depth -> exists i, i < size /\ stage i = k /\ forall r, thread (workers w i) <> Returned r) ->
  (forall e w', inside e -> ~ fstep size C stage (fun i => S (stage i)) w e w') -> has_room (channels w depth) = true ->
  Permutation (keep (through f depth) (put_in 0 tr)) (got_out depth tr ++ queue (channels w depth))
  /\ (forall k, k < depth -> queue (channels w k) = [])
  /\ (forall i, i < size -> (exists r, thread (workers w i) = Returned r) \/ exists s d, thread (workers w i) = Waiting s d).
Proof.
  intros P St size C stage depth f comp caps tr w PL CH F ND R ST SE RM.
  assert (ST' : staffed_by size depth stage w).
  { intros k Lk. destruct (ST k Lk) as (j & Lj & E & N). exists j. splits; auto. intros [r X]. exact (N r X). }
  destruct (at_rest size depth C stage f PL comp caps tr w R SE CH ST' RM) as [Q W]. splits; auto.
  rewrite (pipe_result size depth C stage f PL comp caps tr w R F), (nothing_left size depth C stage f PL comp caps tr w R ND ST' Q W), app_nil_r. reflexivity.
Qed.

(** ** Non-vacuity: two duplicates in front of a filter (as in PropsFleet); the first is stopped with a log in hand *)
Definition halt : message P0 := MCommand header_default (C_STOP_COMPONENT "me").
Inductive doing2 := D (d : doing) | Halt0 | TakeHalt0 | Rest (i : nat).
Notation next3 := (fun i => S (stage3 i)).
Definition act2 (w : fleet P0 unit) (d : doing2) : option (event P0 * fleet P0 unit) :=
  match d with
  | D d => act w d
  | Halt0 => if Nat.ltb (length (inbox (workers w 0))) msg_capacity then Some (SendMsg 0 halt, Fleet (time w)
        (set (workers w) 0 (Worker (thread (workers w 0)) (inbox (workers w 0) ++ [halt]) (attached (workers w 0)))) (channels w)) else None
  | TakeHalt0 => match inbox (workers w 0), selecting (view 3 stage3 next3 w 0) with
      | m :: ms, Some (s, d) => Some (Work 0 (TakeMsg m), put stage3 next3 w 0 (process_message (C3 0) s d m) ms (queue (channels w (stage3 0))) (queue (channels w (next3 0))))
      | _, _ => None end
  | Rest i => if Nat.ltb i 3 then match thread (workers w i) with
      | Polling s d => if ready (view 3 stage3 next3 w i) then None else
          Some (Work i Idle, put stage3 next3 w i (Waiting s d) (inbox (workers w i)) (queue (channels w (stage3 i))) (queue (channels w (next3 i))))
      | _ => None end else None
  end.
Lemma act2_ok w d e w' : act2 w d = Some (e, w') -> fstep 3 C3 stage3 next3 w e w'.
Proof.
  destruct d as [d| | |i]; unfold act2; intro H.
  - apply act_ok with (d := d). exact H.
  - destruct (Nat.ltb_spec (length (inbox (workers w 0))) msg_capacity) as [L|]; [|discriminate]. inversion H; subst. apply f_send_msg; [lia|exact L].
  - destruct (inbox (workers w 0)) as [|m ms] eqn:I; [discriminate|]. destruct (selecting _) as [[s d]|] eqn:S0; [|discriminate]. inversion H; subst.
    eapply f_work; [lia|reflexivity|]. unfold view in *. rewrite I in *. apply s_take_msg. exact S0.
  - destruct (Nat.ltb_spec i 3) as [L|]; [|discriminate]. destruct (thread (workers w i)) as [s|s d|s d|s d l|r] eqn:T; try discriminate.
    destruct (ready _) eqn:Y; [discriminate|]. inversion H; subst. eapply f_work; [exact L|reflexivity|]. unfold view in *. rewrite T in *. apply s_idle. exact Y.
Qed.
Fixpoint acts2 (w : fleet P0 unit) (ds : list doing2) : option (list (event P0) * fleet P0 unit) :=
  match ds with
  | [] => Some ([], w)
  | d :: r => match act2 w d with
      | Some (e, w1) => match acts2 w1 r with Some (tr, w2) => Some (e :: tr, w2) | None => None end
      | None => None end
  end.
Lemma acts2_ok ds : forall w tr w', acts2 w ds = Some (tr, w') -> frun 3 C3 stage3 next3 w tr w'.
Proof.
  induction ds as [|d ds IH]; simpl; intros w tr w' H; [inversion H; subst; constructor|].
  destruct (act2 w d) as [[e w1]|] eqn:A; [|discriminate]. destruct (acts2 w1 ds) as [[tr1 w2]|] eqn:B; [|discriminate]. inversion H; subst.
  eapply frun_cons; [eapply act2_ok; eauto|eauto].
Qed.
Lemma asleep (D : component P0 unit) (v : world P0 unit) s a v' : ph v = Waiting s None -> ready v = false -> own_label a = true -> ~ step D v a v'.
Proof.
  intros E Y O S. destruct S; try discriminate O; cbn [ph] in E; try discriminate E; try (inversion E; fail); unfold ready in Y; cbn [msgs logs] in Y.
  - discriminate Y.
  - match goal with H : pop_log _ = Some _ |- _ => rewrite H in Y end. destruct ms; discriminate Y.
  - match goal with H : logs_disconnected _ = true |- _ => rewrite H in Y end. destruct ms; [destruct (pop_log x)|]; discriminate Y.
Qed.
Definition story4 : list doing2 :=
  [D (Go 0); D (Go 1); D (Go 2); D (In0 (mk "a")); D (Go 0); D (In0 (mk "c")); Halt0; D (Go 0); TakeHalt0; D (Gone 0);
   D (Go 1); D (Go 2); D (Go 2); D (Go 1); D (Go 2); D (Go 2); D Out2; Rest 1; Rest 2].
Definition history4 : list (event P0) := match acts2 start3 story4 with Some (tr, _) => tr | None => [] end.
Definition end4 : fleet P0 unit := match acts2 start3 story4 with Some (_, w) => w | None => start3 end.
Example C194_case :
  frun 3 C3 stage3 next3 (spawn C3 (fun _ => tt) (pipes 2 (fun _ => Some 2))) history4 end4
  /\ history4 = (let a := mk "a" in let c := mk "c" in
       [Work 0 Tick; Work 1 Tick; Work 2 Tick; SendLog 0 a; Work 0 (TakeLog a); SendLog 0 c; SendMsg 0 halt; Work 0 (Forward a); Work 0 (TakeMsg halt); Detach 0;
        Work 1 (TakeLog c); Work 2 (TakeLog a); Work 2 (Forward a); Work 1 (Forward c); Work 2 (TakeLog c); Work 2 (Forward c); Receive 2 a;
        Work 1 Idle; Work 2 Idle])
  /\ got_out 2 history4 = [mk "a"] /\ queue (channels end4 2) = [mk "c"] /\ has_room (channels end4 2) = true
  /\ thread (workers end4 0) = Returned (Ok tt)
  /\ (forall k, k < 2 -> exists i, i < 3 /\ stage3 i = k /\ forall r, thread (workers end4 i) <> Returned r)
  /\ (forall e w', inside e -> ~ fstep 3 C3 stage3 next3 end4 e w')
  /\ Forall no_log_message history4 /\ ~ In (DropReceiver 2) history4.
Proof.
  assert (H : history4 = (let a := mk "a" in let c := mk "c" in
       [Work 0 Tick; Work 1 Tick; Work 2 Tick; SendLog 0 a; Work 0 (TakeLog a); SendLog 0 c; SendMsg 0 halt; Work 0 (Forward a); Work 0 (TakeMsg halt); Detach 0;
        Work 1 (TakeLog c); Work 2 (TakeLog a); Work 2 (Forward a); Work 1 (Forward c); Work 2 (TakeLog c); Work 2 (Forward c); Receive 2 a;
        Work 1 Idle; Work 2 Idle])).
  { vm_compute. reflexivity. }
  splits.
  - apply (acts2_ok story4). unfold history4, end4. change (spawn C3 (fun _ => tt) (pipes 2 (fun _ => Some 2))) with start3.
    destruct (acts2 start3 story4) as [[tr w]|] eqn:E; [reflexivity|]. exfalso. unfold history4 in H. rewrite E in H. discriminate H.
  - exact H.
  - rewrite H. reflexivity.
  - vm_compute. reflexivity.
  - vm_compute. reflexivity.
  - vm_compute. reflexivity.
  - intros k L. destruct k as [|[|k]]; [exists 1|exists 2|lia]; splits; auto; intro r; vm_compute; discriminate.
  - intros e w' I S. remember end4 as w4 eqn:E4. destruct S as [w i a p t ms q b o c r L O S|w i m|w j l|w j l q R Q|w j|w j|w t|w i r0 L X A]; try destruct I.
    + destruct i as [|[|[|i]]]; [| | |lia].
      * assert (E : ph (view 3 stage3 next3 w 0) = Returned (Ok tt)) by (subst w; vm_compute; reflexivity).
        destruct (returned_step (C3 0) _ _ _ _ E S) as [_ X]. apply X, own_by, O.
      * eapply (asleep (C3 1) _ tt); [| |exact O|exact S]; subst w; vm_compute; reflexivity.
      * eapply (asleep (C3 2) _ tt); [| |exact O|exact S]; subst w; vm_compute; reflexivity.
    + subst w. destruct i as [|[|[|i]]]; [| | |lia]; [clear X; vm_compute in A; discriminate|vm_compute in X; discriminate..].
  - rewrite H. cbv zeta. repeat constructor.
  - rewrite H. cbv zeta. simpl. intuition discriminate.
Qed.
Print Assumptions C194_none_refused.
Print Assumptions C194_others_take_over.
