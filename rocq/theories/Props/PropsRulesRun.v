(** C196: the rules dataset in use, from the three ways of inserting to the published rules. *)
From Coq Require Import String List Bool Arith Lia.
From Verif Require Import Base.Arith Base.Ord Base.BTree Base.Outcome Model.Datasets Spec.DatasetSpec Spec.DatasetRuns Spec.RulesRunSpec Proofs.DatasetP.
Import ListNotations.
Local Open Scope string_scope.
Local Open Scope list_scope.

Section Run.
  Context {R : Type} (name : R -> string).
  Notation upd := (update R string (@rules_ds R)).
  Definition named (l : list R) : list (op string R) := map (fun r => Ins (name r) r) l.
  Lemma rules_run_named l d : fold_left (upd1 (rules_insert name) (@rules_remove R)) (map Add l) d
    = fold_left (fun d (o : op string R) => match o with Ins _ r => rules_insert name r d | Del k => rules_remove k d end) (named l) d.
  Proof. revert d. induction l as [|r l IH]; intro d; [reflexivity|]. cbn [map named fold_left upd1]. apply IH. Qed.
  Lemma timeout_chan (env : list (nat * bool)) : forall (c : chan upd) (rule : R) c' got r,
    insert_timeout c rule env = Val (c', got, r) -> cap c' = cap c /\ alive c' = alive c /\
      (length (queue c) <= cap c -> length (queue c') <= cap c).
  Proof.
    induction env as [|[n late] env IH]; intros c rule c' got r; [discriminate|].
    cbn [insert_timeout]. unfold try_send. cbn [alive queue cap].
    assert (LE : length (queue c) <= cap c -> length (skipn n (queue c)) <= cap c) by (rewrite skipn_length; lia).
    assert (Hrec : forall c2, queue c2 = skipn n (queue c) -> cap c2 = cap c -> alive c2 = alive c ->
       (if late then Val (c2, firstn n (queue c), Err rule)
        else let! x := insert_timeout c2 rule env in
             let '(c3, got', res) := x in Val (c3, firstn n (queue c) ++ got', res)) = Val (c', got, r) ->
       cap c' = cap c /\ alive c' = alive c /\ (length (queue c) <= cap c -> length (queue c') <= cap c)).
    { intros c2 H2 C2 A2. destruct late.
      - intros H. injection H as <- <- <-. rewrite H2. auto.
      - destruct (insert_timeout c2 rule env) as [[[c3 g3] r3]| |] eqn:E; cbn [obind]; try discriminate.
        intros H. injection H as <- <- <-. destruct (IH _ _ _ _ _ E) as (X & Y & Z). rewrite X, Y. splits; [congruence|congruence|].
        rewrite C2, H2 in Z. auto. }
    destruct (alive c) eqn:HA; [destruct (_ <? _)%nat eqn:L|]; cbn [extract_rule obind].
    - intros H. injection H as <- <- <-. cbn [queue cap alive]. splits; auto. intros _. rewrite app_length. cbn [length]. apply Nat.ltb_lt in L. lia.
    - apply Hrec; reflexivity.
    - apply Hrec; reflexivity.
  Qed.

  Definition on_the_way (n : nat) (es : list (@revent R)) (s : rstate) (published received waiting : list R) : Prop :=
    inserted es = published ++ received ++ waiting /\ r_seen s = rules_run name (named published) /\ r_batch s = map Add received /\
    r_chan s = Chan n (map Add waiting) true /\ length waiting <= n.
  Lemma map_add_app (l : list R) (a b : list upd) : map Add l = a ++ b -> exists x y, l = x ++ y /\ a = map Add x /\ b = map Add y.
  Proof.
    revert l. induction a as [|u a IH]; intros l H; [exists [], l; auto|]. destruct l as [|r l]; [discriminate|]. injection H as <- H.
    destruct (IH _ H) as (x & y & -> & -> & ->). exists (r :: x), y. auto.
  Qed.
  Lemma way n s0 es s : s0 = rules_start n -> rsteps name s0 es s -> exists p q w, on_the_way n es s p q w.
  Proof.
    intros E0 H. induction H as [s0|s0 es s e s' H IH ST]; subst.
    - exists [], [], []. unfold on_the_way; splits; try reflexivity; cbn; lia.
    - destruct (IH eq_refl) as (p & q & w & I & D & B & C & L). clear IH H. unfold on_the_way, inserted in *. rewrite flat_map_app. rewrite I. cbn [flat_map].
      destruct ST as [c d b r c' X|c d b r c' X|c d b r c' x X|c d b r env c' got X|c d b r env c' got x X|c d b u us X|c d b d' NE X];
        cbn [r_chan r_seen r_batch] in *; subst; cbn [app].
      + exists p, q, (w ++ [r]). unfold rules_syn_insert, send in X. cbn [alive queue cap] in X.
        destruct (_ <? _)%nat eqn:Lt; [|discriminate]. injection X as <-. apply Nat.ltb_lt in Lt. rewrite map_length in Lt.
        splits; cbn [r_chan r_seen r_batch]; auto.
        * rewrite <- !app_assoc. reflexivity.
        * rewrite map_app. reflexivity.
        * rewrite app_length. cbn [length]. lia.
      + exists p, q, (w ++ [r]). unfold try_insert, try_send in X. cbn [alive queue cap] in X.
        destruct (_ <? _)%nat eqn:Lt; [|discriminate]. injection X as <-. apply Nat.ltb_lt in Lt. rewrite map_length in Lt.
        splits; cbn [r_chan r_seen r_batch]; auto.
        * rewrite <- !app_assoc. reflexivity.
        * rewrite map_app. reflexivity.
        * rewrite app_length. cbn [length]. lia.
      + exists p, q, w. rewrite app_nil_r. destruct (try_insert_spec (Chan n (map Add w) true) r) as (c1 & r1 & E1 & H1). rewrite E1 in X. injection X as -> ->.
        destruct H1 as [_ ->]. splits; auto.
      + pose proof (insert_timeout_spec env _ _ _ _ _ X) as Q. cbn iota in Q. destruct (timeout_chan _ _ _ _ _ _ X) as (CC & CA & CL).
        cbn [queue cap alive] in *. change [Add r] with (map (@Add R string (@rules_ds R)) [r]) in Q. rewrite <- map_app in Q. symmetry in Q. apply map_add_app in Q.
        destruct Q as (x & y & Q & -> & Qy). exists p, (q ++ x), y. rewrite map_length in CL. specialize (CL L).
        splits; cbn [r_chan r_seen r_batch]; auto.
        * rewrite <- !app_assoc. rewrite Q. reflexivity.
        * rewrite map_app. reflexivity.
        * destruct c' as [n' q' a']. cbn in *. subst. reflexivity.
        * rewrite Qy, map_length in CL. exact CL.
      + pose proof (insert_timeout_spec env _ _ _ _ _ X) as Q. cbn iota in Q. destruct Q as [-> Q]. destruct (timeout_chan _ _ _ _ _ _ X) as (CC & CA & CL).
        cbn [queue cap alive] in *. symmetry in Q. apply map_add_app in Q.
        destruct Q as (x & y & -> & -> & Qy). exists p, (q ++ x), y. rewrite map_length in CL. specialize (CL L).
        splits; cbn [r_chan r_seen r_batch]; auto.
        * rewrite app_nil_r, <- !app_assoc. reflexivity.
        * rewrite map_app. reflexivity.
        * destruct c' as [n' q' a']. cbn in *. subst. reflexivity.
        * rewrite Qy, map_length in CL. exact CL.
      + cbn [queue] in X. destruct w as [|r w]; [discriminate|]. injection X as <- <-. exists p, (q ++ [r]), w. cbn [length] in L.
        splits; cbn [r_chan r_seen r_batch cap alive]; auto; [|rewrite map_app; reflexivity|lia].
        rewrite app_nil_r, <- !app_assoc. reflexivity.
      + exists (p ++ q), [], w. splits; cbn [r_chan r_seen r_batch]; auto.
        * rewrite app_nil_r, <- !app_assoc. reflexivity.
        * rewrite rules_apply_def in X. destruct (map Add q) eqn:Eq; [congruence|]. rewrite <- Eq in X. injection X as <-.
          rewrite rules_run_named. unfold rules_run, named. rewrite map_app, fold_left_app. reflexivity.
  Qed.
End Run.

(** * C196 *)
(** At any moment of any history: of the rules whose insertion succeeded the first ones are published, the next are with the owner and the last
    wait in the channel, in the order of the insertions, none lost, none twice, and no more waiting than the channel has slots. *)
Theorem C196_nothing_lost : forall (R : Type) (name : R -> string) n es s, rsteps name (rules_start n) es s ->
  exists published received waiting, inserted es = published ++ received ++ waiting /\
    (forall id r, rules_get id (r_seen s) = Some r <-> lives eq (map (fun r => Ins (name r) r) published) id r) /\
    r_batch s = map Add received /\ r_chan s = Chan n (map Add waiting) true /\ length waiting <= n.
Proof.
  intros R name n es s H. destruct (way name n _ es s eq_refl H) as (p & q & w & I & D & B & C & L). exists p, q, w. splits; auto.
  intros id r. rewrite D. apply rules_history. unfold named. intros k x X. apply in_map_iff in X. destruct X as (y & Y & _). congruence.
Qed.
(** When nothing waits and the owner has published, the published dataset finds under a name the last rule of that name whose insertion succeeded. *)
Theorem C196_published : forall (R : Type) (name : R -> string) n es s, rsteps name (rules_start n) es s -> queue (r_chan s) = [] -> r_batch s = [] ->
  forall id r, rules_get id (r_seen s) = Some r <-> lives eq (map (fun r => Ins (name r) r) (inserted es)) id r.
Proof.
  intros R name n es s H Q B. destruct (C196_nothing_lost R name n es s H) as (p & q & w & I & D & HB & C & _). rewrite C in Q. cbn in Q.
  rewrite HB in B. destruct w; [|discriminate]. destruct q; [|discriminate]. rewrite I. cbn. rewrite app_nil_r. exact D.
Qed.
(** From any moment the owner can get there alone: its steps never abort. *)
Theorem C196_can_publish : forall (R : Type) (name : R -> string) n es s, rsteps name (rules_start n) es s ->
  exists es' s', rsteps name (rules_start n) (es ++ es') s' /\ Forall (fun e => e = Received \/ e = Published) es' /\
    inserted (es ++ es') = inserted es /\ queue (r_chan s') = [] /\ r_batch s' = [].
Proof.
  intros R name n es s H. destruct (C196_nothing_lost R name n es s H) as (p & q & w & I & D & B & C & _).
  assert (RC : exists es' s', rsteps name (rules_start n) (es ++ es') s' /\ Forall (fun e : revent => e = Received \/ e = Published) es' /\
     inserted (es ++ es') = inserted es /\ queue (r_chan s') = []).
  { clear I D B. revert es s H C. induction w as [|r w IH]; intros es s H C.
    - exists [], s. rewrite app_nil_r, C. auto.
    - destruct s as [c d b]. cbn [r_chan] in C. subst c.
      destruct (IH (es ++ [Received]) (RState (Chan n (map Add w) true) d (b ++ [Add r]))) as (es' & s' & H' & F & I & Q).
      + econstructor; [exact H|]. exact (rs_receive name (Chan n (map Add (r :: w)) true) d b (Add r) (map Add w) eq_refl).
      + reflexivity.
      + exists (Received :: es'), s'. rewrite <- app_assoc in H', I. cbn [app] in H', I. splits; auto.
        rewrite I. unfold inserted. rewrite flat_map_app. apply app_nil_r. }
  destruct RC as (es' & [c d b] & H' & F & I' & Q). cbn [r_chan] in Q. destruct b as [|u b].
  - exists es', (RState c d []). auto.
  - exists (es' ++ [Published]). eexists (RState c _ []). splits; [| | |exact Q|reflexivity].
    + rewrite app_assoc. econstructor; [exact H'|]. apply rs_publish; [discriminate|]. rewrite rules_apply_def. reflexivity.
    + apply Forall_app. auto.
    + unfold inserted in *. rewrite app_assoc, flat_map_app, I'. apply app_nil_r.
Qed.
(** A call that fails gives the rule back as it was; [try_insert] fails only if the channel is full, and [insert] waits only then. *)
Theorem C196_given_back : forall (R : Type) (name : R -> string) n es s, rsteps name (rules_start n) es s ->
  (forall r x, In (Refused r x) es -> x = r) /\
  (forall r, ((exists c', try_insert (r_chan s) r = Val (c', Err r)) <-> length (queue (r_chan s)) = n) /\
             (rules_syn_insert (r_chan s) r = None <-> length (queue (r_chan s)) = n)).
Proof.
  intros R name n es s H. split.
  - intros r x. induction H as [|s0 es s e s' H IH ST]; [intros []|]. rewrite in_app_iff. intros [X|[X|[]]]; [exact (IH X)|]. subst e.
    inversion ST; subst.
    + match goal with X : try_insert ?c ?q = _ |- _ => destruct (try_insert_spec c q) as (c1 & r1 & E1 & H1); rewrite E1 in X; injection X as -> ->; apply H1 end.
    + match goal with X : insert_timeout _ _ _ = _ |- _ => exact (proj1 (insert_timeout_spec _ _ _ _ _ _ X)) end.
  - intro r. destruct (C196_nothing_lost R name n es s H) as (p & q & w & _ & _ & _ & C & L). rewrite C.
    unfold try_insert, try_send, rules_syn_insert, send. cbn [alive queue cap]. rewrite map_length.
    destruct (Nat.ltb_spec (length w) n) as [Lt|Ge]; cbn [extract_rule obind].
    + split; (split; [intro X|intro X; lia]); [destruct X as [c' X]|]; discriminate X.
    + split; (split; [intro X; lia|intro X]); [eexists; reflexivity|reflexivity].
Qed.
(** A call of [insert_timeout] is nothing but calls of [try_insert], the last of which gives its answer. *)
Lemma attempts_receive {R} (r : R) k : forall c got c2, attempts r (Chan (cap c) (skipn k (queue c)) (alive c)) got c2 -> attempts r c (firstn k (queue c) ++ got) c2.
Proof.
  induction k as [|k IH]; intros [n q a] got c2 H; cbn [cap queue alive] in *; [exact H|].
  destruct q as [|u q]; [exact H|]. cbn [firstn app]. eapply at_receive; [reflexivity|]. cbn [cap alive]. exact (IH (Chan n q a) _ _ H).
Qed.
Theorem C196_timed : forall (R : Type) (r : R) c c' got answer,
  (exists env, insert_timeout c r env = Val (c', got, answer)) <-> (exists c1, attempts r c got c1 /\ try_insert c1 r = Val (c', answer)).
Proof.
  intros R r c c' got answer. split.
  - intros [env H]. revert c got H. induction env as [|[k late] env IH]; intros c got H; [discriminate|]. cbn [insert_timeout] in H.
    set (c1 := Chan (cap c) (skipn k (queue c)) (alive c)) in *.
    destruct (try_insert_spec c1 r) as (c2 & a2 & T & S2). pose proof T as T'. unfold try_insert in T'.
    destruct (try_send c1 (Add r)) as [c3 [[]|[u|u]]] eqn:E.
    + injection T' as <- <-. injection H as <- <- <-. exists c1. split; [|exact T]. rewrite <- (app_nil_r (firstn k (queue c))). apply attempts_receive. apply at_none.
    + destruct (extract_rule u) as [r0| |] eqn:X; cbn [obind] in T', H; try discriminate. injection T' as <- <-. destruct S2 as [-> ->]. destruct late.
      * injection H as <- <- <-. exists c1. split; [|exact T]. rewrite <- (app_nil_r (firstn k (queue c))). apply attempts_receive. apply at_none.
      * destruct (insert_timeout c1 r env) as [[[c4 g4] a4]| |] eqn:I; cbn [obind] in H; try discriminate. injection H as -> <- ->.
        destruct (IH c1 g4 I) as (c5 & A & T5). exists c5. split; [|exact T5]. apply attempts_receive. eapply at_refused; [exact T|exact A].
    + destruct (extract_rule u) as [r0| |] eqn:X; cbn [obind] in T', H; try discriminate. injection T' as <- <-. destruct S2 as [-> ->]. destruct late.
      * injection H as <- <- <-. exists c1. split; [|exact T]. rewrite <- (app_nil_r (firstn k (queue c))). apply attempts_receive. apply at_none.
      * destruct (insert_timeout c1 r env) as [[[c4 g4] a4]| |] eqn:I; cbn [obind] in H; try discriminate. injection H as -> <- ->.
        destruct (IH c1 g4 I) as (c5 & A & T5). exists c5. split; [|exact T5]. apply attempts_receive. eapply at_refused; [exact T|exact A].
  - intros (c1 & A & T). revert T. induction A as [c|c c1 got c2 E A IH|c u us got c2 Q A IH]; intro T.
    + exists [(0, true)]. cbn [insert_timeout firstn skipn]. unfold try_insert in T. destruct c as [n q al]. cbn [cap queue alive].
      destruct (try_send (Chan n q al) (Add r)) as [c3 [[]|[u|u]]].
      * injection T as <- <-. reflexivity.
      * destruct (extract_rule u); cbn [obind] in *; try discriminate. injection T as <- <-. reflexivity.
      * destruct (extract_rule u); cbn [obind] in *; try discriminate. injection T as <- <-. reflexivity.
    + destruct (IH T) as [env I]. exists ((0, false) :: env). cbn [insert_timeout firstn skipn]. unfold try_insert in E. destruct c as [n q al]. cbn [cap queue alive].
      destruct (try_send (Chan n q al) (Add r)) as [c3 [[]|[u|u]]]; [discriminate| |];
        (destruct (extract_rule u); cbn [obind] in *; try discriminate; injection E as <- ->; rewrite I; reflexivity).
    + destruct (IH T) as [env I]. destruct env as [|[k late] env]; [discriminate|]. exists ((S k, late) :: env). cbn [insert_timeout] in I |- *. cbn [cap queue alive] in I.
      rewrite Q. cbn [skipn firstn]. destruct (try_send _ (Add r)) as [c3 [[]|[x|x]]].
      * injection I as <- <- <-. reflexivity.
      * destruct (extract_rule x); cbn [obind] in *; try discriminate. destruct late; [injection I as <- <- <-; reflexivity|].
        destruct (insert_timeout c3 _ env) as [[[c4 g4] a4]| |]; cbn [obind] in *; try discriminate. injection I as <- <- <-. reflexivity.
      * destruct (extract_rule x); cbn [obind] in *; try discriminate. destruct late; [injection I as <- <- <-; reflexivity|].
        destruct (insert_timeout c3 _ env) as [[[c4 g4] a4]| |]; cbn [obind] in *; try discriminate. injection I as <- <- <-. reflexivity.
Qed.
Example C196_case : let es := [Inserted ("a", 1); Refused ("b", 2) ("b", 2); Inserted ("b", 3); Published; Received; Inserted ("a", 4); Received; Published] in
  exists s, rsteps fst (rules_start 1) es s /\ queue (r_chan s) = [] /\ r_batch s = [] /\
    rules_get "a" (r_seen s) = Some ("a", 4) /\ rules_get "b" (r_seen s) = Some ("b", 3).
Proof.
  cbv zeta. eexists. split.
  - change [Inserted ("a", 1); Refused ("b", 2) ("b", 2); Inserted ("b", 3); Published; Received; Inserted ("a", 4); Received; Published]
      with ((((((((([] ++ [Inserted ("a", 1)]) ++ [Refused ("b", 2) ("b", 2)]) ++ [Inserted ("b", 3)]) ++ [Published]) ++ [Received]) ++ [Inserted ("a", 4)]) ++ [Received]) ++ [Published])).
    eapply rss_snoc; [eapply rss_snoc; [eapply rss_snoc; [eapply rss_snoc; [eapply rss_snoc; [eapply rss_snoc; [eapply rss_snoc; [eapply rss_snoc; [apply rss_nil|]|]|]|]|]|]|]|].
    + apply rs_insert. reflexivity.
    + apply rs_try_back. reflexivity.
    + apply (rs_timed fst _ _ _ _ [(0, false); (1, false)]). reflexivity.
    + apply rs_publish; [discriminate|reflexivity].
    + eapply rs_receive. reflexivity.
    + apply rs_try. reflexivity.
    + eapply rs_receive. reflexivity.
    + apply rs_publish; [discriminate|reflexivity].
  - splits; reflexivity.
Qed.
Print Assumptions C196_nothing_lost.
Print Assumptions C196_published.
Print Assumptions C196_can_publish.
Print Assumptions C196_given_back.
Print Assumptions C196_timed.
