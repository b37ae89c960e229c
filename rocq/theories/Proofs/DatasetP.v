(** Proofs about the datasets of Model/Datasets.v. *)
From Coq Require Import String NArith List Bool Arith.
From Verif Require Import Base.Arith Base.Ord Base.BTree Base.Outcome Model.Ip Model.Datasets Spec.DatasetSpec Spec.DatasetRuns.
Import ListNotations.

(** * Histories *)
Section History.
  Context {K V D : Type} (same : K -> K -> Prop).
  Hypothesis same_dec : forall a b, {same a b} + {~ same a b}.
  Variables (ins : K -> V -> D -> D) (del : K -> D -> D) (get : K -> D -> option V).
  Hypothesis get_ins : forall k k' v d, get k (ins k' v d) = if same_dec k' k then Some v else get k d.
  Hypothesis get_del : forall k k' d, get k (del k' d) = if same_dec k' k then None else get k d.

  Definition apply_op (d : D) (o : op K V) : D := match o with Ins k v => ins k v d | Del k => del k d end.

  Lemma lives_nil k v : ~ lives same (@nil (op K V)) k v.
  Proof. intros (b & k' & a & H & _). destruct b; discriminate. Qed.

  Lemma lives_snoc (ops : list (op K V)) (o : op K V) k v :
    lives same (ops ++ [o]) k v <->
    (exists k', o = Ins k' v /\ same k' k) \/ (~ same (op_key o) k /\ lives same ops k v).
  Proof.
    split.
    - intros (b & k' & a & He & Hs & Ha).
      destruct a as [|x a _] using rev_ind.
      + left. exists k'. apply app_inj_tail in He. destruct He as [_ ->]. auto.
      + right. rewrite app_comm_cons, app_assoc in He. apply app_inj_tail in He. destruct He as [-> ->].
        apply Forall_app in Ha. destruct Ha as [Ha Hx]. apply Forall_inv in Hx. split; [exact Hx|].
        exists b, k', a. auto.
    - intros [(k' & -> & Hs)|[Hn (b & k' & a & -> & Hs & Ha)]].
      + exists ops, k', []. splits; auto.
      + exists b, k', (a ++ [o]). splits; auto.
        * rewrite <- app_assoc. reflexivity.
        * apply Forall_app. split; [exact Ha|]. constructor; auto.
  Qed.

  Lemma get_history d0 (ops : list (op K V)) k v : (forall k, get k d0 = None) ->
    get k (fold_left apply_op ops d0) = Some v <-> lives same ops k v.
  Proof.
    intros H0. revert k v. induction ops as [|o ops IH] using rev_ind; intros k v.
    - simpl. rewrite H0. split; [discriminate|]. intros H; destruct (lives_nil _ _ H).
    - rewrite fold_left_app. cbn [fold_left]. rewrite lives_snoc. destruct o as [k' v'|k']; cbn [apply_op op_key].
      + rewrite get_ins. destruct (same_dec k' k) as [Hs|Hn].
        * split.
          -- intros H; injection H as ->. left; exists k'; auto.
          -- intros [(k2 & He & _)|[Hn _]]; [injection He as _ ->; reflexivity|contradiction].
        * rewrite IH. split; [tauto|]. intros [(k2 & He & Hs)|[_ H]]; [|exact H].
          injection He as -> _; contradiction.
      + rewrite get_del. destruct (same_dec k' k) as [Hs|Hn].
        * split; [discriminate|]. intros [(k2 & He & _)|[Hn _]]; [discriminate|contradiction].
        * rewrite IH. split; [tauto|]. intros [(k2 & He & Hs)|[_ H]]; [discriminate|exact H].
  Qed.
End History.

Definition siem_ip_eq_dec (a b : siem_ip) : {a = b} + {a <> b}.
Proof. repeat decide equality. Defined.

(** ** IP maps *)
Lemma ip_map_get_insert {T} (k k' : siem_ip) (v : T) d :
  ip_map_get k (ip_map_insert k' v d) = if siem_ip_eq_dec k' k then Some v else ip_map_get k d.
Proof.
  destruct k as [a|a], k' as [b|b]; cbn [ip_map_get ip_map_insert map4 map6];
    destruct (siem_ip_eq_dec _ _) as [E|E]; try discriminate; try reflexivity;
    rewrite bt_get_insert; destruct (keqb_spec a b); congruence.
Qed.
Lemma ip_map_get_remove {T} (k k' : siem_ip) (d : ip_map T) :
  ip_map_get k (ip_map_remove k' d) = if siem_ip_eq_dec k' k then None else ip_map_get k d.
Proof.
  destruct k as [a|a], k' as [b|b]; cbn [ip_map_get ip_map_remove map4 map6];
    destruct (siem_ip_eq_dec _ _) as [E|E]; try discriminate; try reflexivity;
    rewrite bt_get_remove; destruct (keqb_spec a b); congruence.
Qed.

Lemma ip_map_history {T} (ops : list (op siem_ip T)) k v :
  ip_map_get k (ip_map_run ops) = Some v <-> lives eq ops k v.
Proof.
  apply (get_history eq siem_ip_eq_dec).
  - intros a b c. apply ip_map_get_insert.
  - apply ip_map_get_remove.
  - intros [x|x]; reflexivity.
Qed.

(** ** IP sets *)
Definition ip_set_as_map (k : siem_ip) (d : ip_set) : option unit := if ip_set_contains k d then Some tt else None.

Lemma ip_set_contains_insert k k' d :
  ip_set_contains k (ip_set_insert k' d) = if siem_ip_eq_dec k' k then true else ip_set_contains k d.
Proof.
  destruct k as [a|a], k' as [b|b]; cbn [ip_set_contains ip_set_insert set4 set6];
    destruct (siem_ip_eq_dec _ _) as [E|E]; try discriminate; try reflexivity;
    unfold bset_mem, bset_add; rewrite bt_has_insert; destruct (keqb_spec a b); simpl; congruence.
Qed.
Lemma ip_set_contains_remove k k' d :
  ip_set_contains k (ip_set_remove k' d) = if siem_ip_eq_dec k' k then false else ip_set_contains k d.
Proof.
  destruct k as [a|a], k' as [b|b]; cbn [ip_set_contains ip_set_remove set4 set6];
    destruct (siem_ip_eq_dec _ _) as [E|E]; try discriminate; try reflexivity;
    unfold bset_mem, bt_has; rewrite bt_get_remove; destruct (keqb_spec a b); simpl; congruence.
Qed.

Lemma ip_set_history ops k : ip_set_contains k (ip_set_run ops) = true <-> lives eq ops k tt.
Proof.
  rewrite <- (get_history eq siem_ip_eq_dec (fun k (_ : unit) d => ip_set_insert k d) ip_set_remove ip_set_as_map
                ) with (d0 := ip_set_new).
  - unfold ip_set_as_map. change (fold_left _ ops ip_set_new) with (ip_set_run ops).
    destruct (ip_set_contains k (ip_set_run ops)); split; congruence.
  - intros a b [] d. unfold ip_set_as_map. rewrite ip_set_contains_insert. destruct (siem_ip_eq_dec b a); reflexivity.
  - intros a b d. unfold ip_set_as_map. rewrite ip_set_contains_remove. destruct (siem_ip_eq_dec b a); reflexivity.
  - intros [x|x]; reflexivity.
Qed.

(** ** Text maps, text sets and rules *)
Lemma bt_history {K V} {O : Ord K} (ops : list (op K V)) k v :
  bt_get k (fold_left (fun d o => match o with Ins k v => bt_insert k v d | Del k => bt_remove k d end) ops (bt_empty : bt K V))
    = Some v <-> lives eq ops k v.
Proof.
  apply (get_history eq ord_eq_dec (fun k v (d : bt K V) => bt_insert k v d) (fun k (d : bt K V) => bt_remove k d)
           (fun k d => bt_get k d)).
  - intros a b w d. rewrite bt_get_insert. destruct (keqb_spec a b), (ord_eq_dec b a); congruence.
  - intros a b d. rewrite bt_get_remove. destruct (keqb_spec a b), (ord_eq_dec b a); congruence.
  - reflexivity.
Qed.

Lemma text_map_history {T} (ops : list (op string T)) k v :
  text_map_get k (text_map_run ops) = Some v <-> lives eq ops k v.
Proof. exact (bt_history ops k v). Qed.

Lemma text_set_history vals x : text_set_contains x (text_set_run vals) = true <-> In x vals.
Proof.
  unfold text_set_run. induction vals as [|y r IH] using rev_ind; [split; [discriminate|intros []]|].
  rewrite fold_left_app. cbn [fold_left]. unfold text_set_contains, text_set_insert, bset_mem, bset_add in *.
  rewrite bt_has_insert, orb_true_iff, in_app_iff, IH, keqb_eq. simpl. intuition auto.
Qed.

Lemma rules_history {R} (name : R -> string) (ops : list (op string R)) k r :
  (forall k r, In (Ins k r) ops -> k = name r) ->
  rules_get k (rules_run name ops) = Some r <-> lives eq ops k r.
Proof.
  intros Hn. rewrite <- bt_history. unfold rules_get, rules_run, rules_new.
  assert (H : forall d, fold_left (fun d o => match o with Ins _ r => rules_insert name r d | Del k => rules_remove k d end) ops d
            = fold_left (fun (d : bt string R) o => match o with Ins k v => bt_insert k v d | Del k => bt_remove k d end) ops d).
  { induction ops as [|o ops IH]; intros d; [reflexivity|]. cbn [fold_left].
    rewrite IH; [|intros; apply Hn; right; assumption]. f_equal.
    destruct o as [k' r'|k']; [|reflexivity]. unfold rules_insert. rewrite <- (Hn k' r'); [reflexivity|left; reflexivity]. }
  rewrite H. reflexivity.
Qed.

(** * Batches *)
Section Batch.
  Context {A Rm D : Type} (ins : A -> D -> D) (rem : Rm -> D -> D).

  Definition upd1 (d : D) (u : update A Rm D) : D :=
    match u with Add a => ins a d | Remove r => rem r d | Replace d' => d' end.

  Lemma update_step_iff d u d' : update_step ins rem d u d' <-> d' = upd1 d u.
  Proof. split; [intros []; reflexivity|]. intros ->. destruct u; constructor. Qed.

  Lemma one_by_one_iff d us d' : one_by_one (update_step ins rem) d us d' <-> d' = fold_left upd1 us d.
  Proof.
    revert d. induction us as [|u us IH]; intros d; split.
    - inversion 1; reflexivity.
    - intros ->; constructor.
    - inversion 1 as [|? ? d1 ? ? Hs Hr]; subst. apply update_step_iff in Hs. subst d1. apply IH in Hr. exact Hr.
    - intros ->. cbn [fold_left]. econstructor; [apply update_step_iff; reflexivity|]. apply IH. reflexivity.
  Qed.

  Variable apply : D -> list (update A Rm D) -> outcome D.
  Hypothesis apply_def : forall d us, apply d us = match us with [] => Panic | _ => Val (fold_left upd1 us d) end.

  Lemma apply_in_order d us d' : us <> [] -> (apply d us = Val d' <-> one_by_one (update_step ins rem) d us d').
  Proof.
    intros Hn. rewrite one_by_one_iff, apply_def. destruct us as [|u us]; [contradiction|].
    split; [intros H; injection H as <-; reflexivity|intros ->; reflexivity].
  Qed.
  Lemma apply_total d us : us <> [] -> exists d', apply d us = Val d'.
  Proof. intros Hn. rewrite apply_def. destruct us; [contradiction|]. eauto. Qed.
  Lemma apply_split d us vs : us <> [] -> vs <> [] -> apply d (us ++ vs) = obind (apply d us) (fun d' => apply d' vs).
  Proof.
    intros Hu Hv. rewrite !apply_def. destruct us as [|u us]; [contradiction|]. cbn [obind app]. rewrite apply_def.
    destruct vs as [|v vs]; [contradiction|].
    change (u :: us ++ v :: vs) with ((u :: us) ++ v :: vs). rewrite fold_left_app. reflexivity.
  Qed.
  Lemma apply_replace d1 d2 us vs d' : apply d1 (us ++ Replace d' :: vs) = apply d2 (Replace d' :: vs).
  Proof.
    rewrite !apply_def. destruct (us ++ Replace d' :: vs) eqn:E; [destruct us; discriminate|].
    rewrite <- E, fold_left_app. reflexivity.
  Qed.
End Batch.

Lemma ip_set_apply_def d us :
  ip_set_apply d us = match us with [] => Panic | _ => Val (fold_left (upd1 ip_set_insert ip_set_remove) us d) end.
Proof.
  assert (H : forall us d, ip_set_rest d us = fold_left (upd1 ip_set_insert ip_set_remove) us d).
  { clear. induction us as [|[a|r|x] us IH]; intros d; cbn [ip_set_rest fold_left upd1]; auto. }
  destruct us as [|u us]; [reflexivity|]. unfold ip_set_apply. rewrite H. destruct u; reflexivity.
Qed.

Definition ip_map_ins {T} (p : siem_ip * T) (d : ip_map T) : ip_map T := ip_map_insert (fst p) (snd p) d.
Lemma ip_map_apply_def {T} (d : ip_map T) us :
  ip_map_apply d us = match us with [] => Panic | _ => Val (fold_left (upd1 ip_map_ins ip_map_remove) us d) end.
Proof.
  assert (H : forall us (d : ip_map T), ip_map_rest d us = fold_left (upd1 ip_map_ins ip_map_remove) us d).
  { clear. induction us as [|[[a b]|r|x] us IH]; intros d; cbn [ip_map_rest fold_left upd1]; auto. }
  destruct us as [|u us]; [reflexivity|]. unfold ip_map_apply. rewrite H. destruct u as [[a b]|r|x]; reflexivity.
Qed.

Definition text_map_ins {T} (p : string * T) (d : text_map T) : text_map T := text_map_insert (fst p) (snd p) d.
Lemma text_map_apply_def {T} (d : text_map T) us :
  text_map_apply d us = match us with [] => Panic | _ => Val (fold_left (upd1 text_map_ins text_map_remove) us d) end.
Proof.
  assert (H : forall us (d : text_map T), text_map_rest d us = fold_left (upd1 text_map_ins text_map_remove) us d).
  { clear. induction us as [|[[a b]|r|x] us IH]; intros d; cbn [text_map_rest fold_left upd1]; auto. }
  destruct us as [|u us]; [reflexivity|]. unfold text_map_apply. rewrite H. destruct u as [[a b]|r|x]; reflexivity.
Qed.

Lemma rules_apply_def {R} (name : R -> string) d us :
  rules_apply name d us = match us with [] => Panic | _ => Val (fold_left (upd1 (rules_insert name) rules_remove) us d) end.
Proof.
  assert (H : forall us d, rules_rest name d us = fold_left (upd1 (rules_insert name) rules_remove) us d).
  { clear. induction us as [|[a|r|x] us IH]; intros d; cbn [rules_rest fold_left upd1]; auto. }
  destruct us as [|u us]; [reflexivity|]. unfold rules_apply. rewrite H. destruct u; reflexivity.
Qed.

(** Snapshots *)
Lemma syn_apply_snapshot {D U} (apply : D -> list U -> outcome D) heap self us heap' self' :
  syn_apply apply heap self us = Val (heap', self') ->
  (forall p d, nth_error heap p = Some d -> nth_error heap' p = Some d) /\
  comm self' = comm self /\
  (exists d d', nth_error heap (arc self) = Some d /\ apply d us = Val d' /\ nth_error heap' (arc self') = Some d').
Proof.
  unfold syn_apply. destruct (nth_error heap (arc self)) as [d|] eqn:E; [|discriminate].
  destruct (apply d us) as [d'| |] eqn:Ea; cbn [obind]; try discriminate.
  intros H. injection H as <- <-. splits.
  - intros p x Hp. rewrite nth_error_app1; [exact Hp|]. apply nth_error_Some. congruence.
  - reflexivity.
  - exists d, d'. splits; auto. cbn [arc]. rewrite nth_error_app2, Nat.sub_diag; [reflexivity|lia].
Qed.

(** * Channels *)
Section Channel.
  Context {U : Type}.
  Lemma roomy_delivers (s : chan U * list U) (es : list (event U)) : roomy s es ->
    let s' := fold_left ev_step es s in
    snd s' ++ queue (fst s') = snd s ++ queue (fst s) ++ writes es.
  Proof.
    induction 1 as [s|c got u es Ha Hl Hr IH|[c got] es Hr IH]; cbn zeta in *.
    - simpl. rewrite app_nil_r. reflexivity.
    - cbn [fold_left]. rewrite IH. cbn [ev_step writes flat_map fst snd]. unfold try_send. rewrite Ha.
      replace (length (queue c) <? cap c)%nat with true by (symmetry; apply Nat.ltb_lt; exact Hl).
      cbn [fst queue]. rewrite <- app_assoc. reflexivity.
    - cbn [fold_left]. rewrite IH. cbn [ev_step writes flat_map]. unfold recv.
      destruct (queue c) as [|u q] eqn:E; cbn [fst snd queue]; rewrite ?E; [reflexivity|].
      rewrite <- app_assoc. reflexivity.
  Qed.

  Lemma subseq_refl (l : list U) : subseq l l.
  Proof. induction l; constructor; auto. Qed.
  Lemma subseq_nil (l : list U) : subseq [] l.
  Proof. induction l; constructor; auto. Qed.
  Lemma subseq_app (a b c d : list U) : subseq a b -> subseq c d -> subseq (a ++ c) (b ++ d).
  Proof. induction 1; simpl; intros; [assumption| |]; constructor; auto. Qed.
  Lemma subseq_trans (a b c : list U) : subseq a b -> subseq b c -> subseq a c.
  Proof.
    intros H1 H2. revert a H1. induction H2 as [|x b c H2 IH|x b c H2 IH]; intros a H1; [exact H1| |].
    - inversion H1; subst; constructor; auto.
    - constructor. auto.
  Qed.

  Lemma run_subseq (s : chan U * list U) (es : list (event U)) :
    let s' := fold_left ev_step es s in
    subseq (snd s' ++ queue (fst s')) (snd s ++ queue (fst s) ++ writes es).
  Proof.
    revert s. induction es as [|e es IH]; intros [c got]; cbn zeta in *; cbn [fold_left].
    - simpl. rewrite app_nil_r. apply subseq_refl.
    - eapply subseq_trans; [apply IH|]. cbn [fst snd].
      destruct e as [u| |]; cbn [ev_step writes flat_map app].
      + unfold try_send. destruct (alive c); [destruct (_ <? _)%nat|]; cbn [fst snd queue].
        * rewrite <- app_assoc. apply subseq_refl.
        * apply subseq_app; [apply subseq_refl|]. apply subseq_app; [apply subseq_refl|].
          constructor. apply subseq_refl.
        * apply subseq_app; [apply subseq_refl|]. apply subseq_app; [apply subseq_refl|].
          constructor. apply subseq_refl.
      + unfold recv. destruct (queue c) as [|u q] eqn:E; cbn [fst snd queue]; rewrite ?E; [apply subseq_refl|].
        rewrite <- app_assoc. apply subseq_refl.
      + cbn [fst snd queue]. apply subseq_app; [apply subseq_refl|].
        apply (subseq_app [] _ _ _); [apply subseq_nil|apply subseq_refl].
  Qed.
End Channel.

(** Rules: the caller is told. *)
Lemma try_insert_spec {R} (c : chan (update R string rules_ds)) (rule : R) :
  exists c' r, try_insert c rule = Val (c', r) /\
    match r with
    | Ok _ => queue c' = queue c ++ [Add rule] /\ alive c' = true
    | Err r' => r' = rule /\ c' = c
    end.
Proof.
  unfold try_insert, try_send.
  destruct (alive c); [destruct (_ <? _)%nat|]; cbn [extract_rule obind]; eexists _, _; (split; [reflexivity|]); cbn [queue alive]; auto.
Qed.

Lemma insert_timeout_spec {R} (env : list (nat * bool)) : forall (c : chan (update R string rules_ds)) (rule : R) c' got r,
  insert_timeout c rule env = Val (c', got, r) ->
  match r with
  | Ok _ => got ++ queue c' = queue c ++ [Add rule]
  | Err r' => r' = rule /\ got ++ queue c' = queue c
  end.
Proof.
  induction env as [|[n late] env IH]; intros c rule c' got r; [discriminate|].
  cbn [insert_timeout]. unfold try_send. cbn [alive queue cap].
  pose proof (firstn_skipn n (queue c)) as Hq.
  assert (Hrec : forall c2, queue c2 = skipn n (queue c) ->
     (if late then Val (c2, firstn n (queue c), Err rule)
      else let! x := insert_timeout c2 rule env in
           let '(c3, got', res) := x in Val (c3, firstn n (queue c) ++ got', res)) = Val (c', got, r) ->
     match r with Ok _ => got ++ queue c' = queue c ++ [Add rule] | Err r' => r' = rule /\ got ++ queue c' = queue c end).
  { intros c2 H2. destruct late.
    - intros H. injection H as <- <- <-. rewrite H2. auto.
    - destruct (insert_timeout c2 rule env) as [[[c3 g3] r3]| |] eqn:E; cbn [obind]; try discriminate.
      intros H. injection H as <- <- <-. apply IH in E. rewrite H2 in E. rewrite <- app_assoc.
      destruct r3 as [[]|r3].
      + rewrite E, app_assoc, Hq. reflexivity.
      + destruct E as [-> E]. split; [reflexivity|]. rewrite E. exact Hq. }
  destruct (alive c); [destruct (_ <? _)%nat|]; cbn [extract_rule obind].
  - intros H. injection H as <- <- <-. cbn [queue]. rewrite app_assoc, Hq. reflexivity.
  - apply Hrec. reflexivity.
  - apply Hrec. reflexivity.
Qed.
