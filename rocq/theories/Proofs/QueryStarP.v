(** What the lexer makes of any double-quoted string (for C52). *)
From Coq Require Import String Ascii NArith List Bool Arith Lia.
From Verif Require Import Base.Arith Base.Outcome Model.Query Spec.QuerySpec Proofs.QueryLexP.
Import ListNotations.
Local Open Scope list_scope.
Local Open Scope char_scope.
Local Open Scope nat_scope.

Fixpoint spots (l : list N) (x : N) (i : nat) : list nat :=
  match l with
  | [] => []
  | c :: l' => (if N.eqb c (ch "*") && negb (N.eqb x (ch "\")) then [i] else []) ++ spots l' c (S i)
  end.
Lemma count_spots l : forall x n i, count_loop l x n = n + length (spots l x i).
Proof.
  induction l as [|c l IH]; intros x n i; cbn [count_loop spots]; [simpl; lia|]. rewrite (IH c _ (S i)), app_length.
  destruct (N.eqb c (ch "*") && negb (N.eqb x (ch "\"))); cbn [length]; lia.
Qed.
Lemma spots_in l : forall x i j, In j (spots l x i) <->
  exists k, j = i + k /\ nth_error l k = Some (ch "*") /\ (k = 0 -> x <> ch "\") /\ (forall m, k = S m -> nth_error l m <> Some (ch "\")).
Proof.
  induction l as [|c l IH]; intros x i j; cbn [spots].
  - split; [intros []|]. intros (k & _ & E & _). destruct k; discriminate.
  - rewrite in_app_iff, IH. split.
    + intros [H|(k & -> & E & A & B)].
      * destruct (N.eqb_spec c (ch "*")) as [->|]; [|destruct H]. destruct (N.eqb_spec x (ch "\")) as [|NX]; [destruct H|]. destruct H as [<-|[]].
        exists 0. split; [lia|]. split; [reflexivity|]. split; [auto|]. intros m M. discriminate.
      * exists (S k). split; [lia|]. split; [exact E|]. split; [discriminate|]. intros m [= <-].
        destruct k as [|k]; cbn [nth_error]; [intros [= X]; exact (A eq_refl X)|exact (B k eq_refl)].
    + intros (k & -> & E & A & B). destruct k as [|k].
      * left. injection E as ->. rewrite N.eqb_refl. destruct (N.eqb_spec x (ch "\")) as [X|X]; [exfalso; exact (A eq_refl X)|]. cbn. auto.
      * right. exists k. split; [lia|]. split; [exact E|]. split.
        -- intros -> ->. exact (B 0 eq_refl eq_refl).
        -- intros m ->. exact (B (S m) eq_refl).
Qed.
Lemma spots_nodup l : forall x i, NoDup (spots l x i).
Proof.
  induction l as [|c l IH]; intros x i; cbn [spots]; [constructor|].
  destruct (N.eqb c (ch "*") && negb (N.eqb x (ch "\"))); [|apply IH]. constructor; [|apply IH].
  rewrite spots_in. intros (k & E & _). lia.
Qed.
Lemma live_count t : live t (count_asterix t).
Proof.
  exists (spots t 0%N 0). split; [apply spots_nodup|]. split; [unfold count_asterix; rewrite (count_spots t _ _ 0); reflexivity|].
  intros i. rewrite spots_in. unfold live_at. split.
  - intros (k & -> & E & _ & B). auto.
  - intros (E & B). exists i. split; [reflexivity|]. split; [exact E|]. split; [intros _; discriminate|exact B].
Qed.
Lemma live_unique t n m : live t n -> live t m -> n = m.
Proof.
  intros (a & A1 & A2 & A3) (b & B1 & B2 & B3). subst. apply Nat.le_antisymm; apply NoDup_incl_length; auto; intros i I; [apply B3, A3|apply A3, B3]; exact I.
Qed.
Lemma begins_iff t : t <> [] -> begins t <-> N.eqb (nth 0 t 0%N) (ch "*") = true.
Proof.
  intros NE. destruct t as [|c r]; [congruence|]. cbn [nth]. rewrite N.eqb_eq. split; [intros (q & [= -> _]); reflexivity|intros ->; exists r; reflexivity].
Qed.
Lemma finishes_iff t : t <> [] -> finishes t <-> N.eqb (nth (length t - 1) t 0%N) (ch "*") = true.
Proof.
  intros NE. destruct (exists_last NE) as (r & c & ->). rewrite nth_snoc, N.eqb_eq. split.
  - intros (q & E). apply app_inj_tail in E. apply E.
  - intros ->. exists r. reflexivity.
Qed.
Lemma token_answer t : answer t (string_token t).
Proof.
  unfold string_token. destruct (Nat.ltb_spec 1 (length t)) as [L|L]; [|apply An_short; lia].
  assert (NE : t <> []) by (intros ->; cbn [length] in L; lia). pose proof (live_count t) as C. cbv zeta.
  destruct (Nat.ltb_spec 2 (count_asterix t)) as [K|K]; [exact (An_like t _ C K)|].
  pose proof (begins_iff t NE) as B. pose proof (finishes_iff t NE) as F.
  destruct (N.eqb (nth 0 t 0%N) (ch "*")); destruct (N.eqb (nth (length t - 1) t 0%N) (ch "*")); cbn [andb].
  - apply (An_contains t _ _ L C K); [apply B|apply F|]; reflexivity.
  - apply (An_starts t _ _ L C K); [apply B; reflexivity|intros X; apply F in X; discriminate|reflexivity].
  - apply (An_ends t _ _ L C K); [intros X; apply B in X; discriminate|apply F; reflexivity|reflexivity].
  - destruct (Nat.eqb_spec (count_asterix t) 0) as [Z|Z].
    + rewrite Z in C. apply (An_plain t L C); [intros X; apply B in X; discriminate|intros X; apply F in X; discriminate].
    + apply (An_inner t _ L C); [lia|intros X; apply B in X; discriminate|intros X; apply F in X; discriminate].
Qed.
Lemma live_le t n : live t n -> n <= length t.
Proof.
  intros (a & A1 & <- & A3). rewrite <- (seq_length (length t) 0). apply NoDup_incl_length; [exact A1|].
  intros i I. apply in_seq. apply A3 in I. destruct I as [I _]. assert (i < length t); [|lia]. apply nth_error_Some. congruence.
Qed.
Lemma answer_unique t a b : answer t a -> answer t b -> a = b.
Proof.
  intros A B. destruct A, B; try reflexivity; try contradiction;
    repeat match goal with H : live ?t ?n, H' : live ?t ?m |- _ => pose proof (live_unique _ _ _ H H'); clear H'; subst end;
    repeat match goal with H : live _ _ |- _ => pose proof (live_le _ _ H); clear H end;
    try lia; unfold without_asterisks in *; congruence.
Qed.

(** ** Escaped asterisks and inner wildcards *)
Lemma live_none t : (forall i, ~ live_at t i) -> live t 0.
Proof. intros H. exists []. split; [constructor|]. split; [reflexivity|]. intros i. split; [intros []|apply H]. Qed.
Lemma live_few t l n : live t n -> (forall i, live_at t i -> In i l) -> n <= length l.
Proof. intros (a & A & <- & B) H. apply NoDup_incl_length; auto. intros i I. apply H, B, I. Qed.
Lemma escape_places v w i : ~ In (ch "*") v -> ~ In (ch "*") w -> ~ live_at (v ++ ch "\" :: ch "*" :: w) i.
Proof.
  intros V W (E & B). destruct (Nat.lt_ge_cases i (length v)) as [L|L].
  - rewrite nth_error_app1 in E by exact L. apply V. eapply nth_error_In. exact E.
  - rewrite nth_error_app2 in E by exact L. destruct (i - length v) as [|[|k]] eqn:K; cbn [nth_error] in E.
    + discriminate.
    + apply (B (length v)); [lia|]. rewrite nth_error_app2, Nat.sub_diag by lia. reflexivity.
    + apply W. eapply nth_error_In. exact E.
Qed.
Lemma not_begins v c r : ~ In (ch "*") v -> c <> ch "*" -> ~ begins (v ++ c :: r).
Proof. intros V C (q & E). destruct v as [|x v]; injection E as -> _; [exact (C eq_refl)|apply V; left; reflexivity]. Qed.
Lemma not_finishes u w : w <> [] -> ~ In (ch "*") w -> ~ finishes (u ++ w).
Proof.
  intros NE W (q & E). destruct (exists_last NE) as (w' & x & ->). rewrite app_assoc in E. apply app_inj_tail in E. destruct E as [_ ->].
  apply W. apply in_or_app. right. left. reflexivity.
Qed.
Lemma escaped_inside v w : ~ In (ch "*") v -> ~ In (ch "*") w -> w <> [] -> answer (v ++ ch "\" :: ch "*" :: w) (T_String (v ++ ch "\" :: ch "*" :: w)).
Proof.
  intros V W N. apply An_plain.
  - rewrite app_length. cbn [length]. lia.
  - apply live_none. intros i. apply escape_places; assumption.
  - apply not_begins; [exact V|discriminate].
  - change (v ++ ch "\" :: ch "*" :: w) with (v ++ [ch "\"; ch "*"] ++ w). rewrite app_assoc. apply not_finishes; assumption.
Qed.
Lemma escaped_last v : ~ In (ch "*") v -> answer (v ++ [ch "\"; ch "*"]) (T_EndsWith (v ++ [ch "\"])).
Proof.
  intros V. apply (An_ends _ 0).
  - rewrite app_length. cbn [length]. lia.
  - apply live_none. intros i. apply escape_places; [exact V|intros []].
  - lia.
  - apply not_begins; [exact V|discriminate].
  - exists (v ++ [ch "\"]). rewrite <- app_assoc. reflexivity.
  - unfold without_asterisks. rewrite filter_app. fold (drop_stars v). rewrite drop_none by exact V. reflexivity.
Qed.
Lemma escaped_contained v w : ~ In (ch "*") v -> ~ In (ch "*") w ->
  answer (ch "*" :: v ++ ch "\" :: ch "*" :: w ++ [ch "*"]) (T_Contains (v ++ ch "\" :: w)).
Proof.
  intros V W. set (t := ch "*" :: v ++ ch "\" :: ch "*" :: w ++ [ch "*"]).
  assert (LT : length t = length v + length w + 4) by (unfold t; cbn [length]; rewrite app_length; cbn [length]; rewrite app_length; cbn [length]; lia).
  apply (An_contains t (count_asterix t)).
  - lia.
  - apply live_count.
  - apply (live_few t [0; length v + length w + 3] _ (live_count t)). intros i (E & B). destruct i as [|i]; [left; reflexivity|]. right. left.
    unfold t in E, B. cbn [nth_error] in E. destruct (Nat.lt_ge_cases i (length v)) as [L|L].
    + exfalso. rewrite nth_error_app1 in E by exact L. apply V. eapply nth_error_In. exact E.
    + rewrite nth_error_app2 in E by exact L. destruct (i - length v) as [|[|k]] eqn:K; cbn [nth_error] in E; [discriminate| |].
      * exfalso. apply (B i eq_refl). replace i with (S (length v)) by lia. cbn [nth_error]. rewrite nth_error_app2, Nat.sub_diag by lia. reflexivity.
      * destruct (Nat.lt_ge_cases k (length w)) as [M|M]; [exfalso; rewrite nth_error_app1 in E by exact M; apply W; eapply nth_error_In; exact E|].
        rewrite nth_error_app2 in E by exact M. destruct (k - length w) as [|m] eqn:KM; [lia|]. destruct m; discriminate.
  - exists (v ++ ch "\" :: ch "*" :: w ++ [ch "*"]). reflexivity.
  - exists (ch "*" :: v ++ ch "\" :: ch "*" :: w). unfold t. cbn [app]. f_equal. rewrite <- app_assoc. reflexivity.
  - unfold without_asterisks, t. change (ch "*" :: v ++ ch "\" :: ch "*" :: w ++ [ch "*"]) with ([ch "*"] ++ v ++ [ch "\"; ch "*"] ++ w ++ [ch "*"]).
    rewrite !filter_app. change (filter (fun c => negb (N.eqb c (ch "*"))) v) with (drop_stars v). change (filter (fun c => negb (N.eqb c (ch "*"))) w) with (drop_stars w). rewrite (drop_none v V), (drop_none w W). cbn. rewrite app_nil_r. reflexivity.
Qed.
Lemma inner_lost v w : ~ In (ch "*") v -> ~ In (ch "*") w -> v <> [] -> answer (v ++ ch "*" :: w ++ [ch "*"]) (T_EndsWith (v ++ w)).
Proof.
  intros V W N. set (t := v ++ ch "*" :: w ++ [ch "*"]).
  apply (An_ends t (count_asterix t)).
  - unfold t. rewrite app_length. cbn [length]. rewrite app_length. cbn [length]. lia.
  - apply live_count.
  - pose proof (count_loop_le t 0%N 0) as B. unfold count_asterix. unfold t in *. rewrite count_occ_app, occ_none in B by exact V. cbn [count_occ] in B.
    rewrite count_occ_app, occ_none in B by exact W. cbn [count_occ] in B. destruct (N.eq_dec (ch "*") (ch "*")); [|congruence]. lia.
  - unfold t. destruct v as [|x v]; [congruence|]. intros (q & E). injection E as -> _. apply V. left. reflexivity.
  - exists (v ++ ch "*" :: w). unfold t. rewrite <- app_assoc. reflexivity.
  - unfold without_asterisks, t. change (v ++ ch "*" :: w ++ [ch "*"]) with (v ++ [ch "*"] ++ w ++ [ch "*"]).
    rewrite !filter_app. change (filter (fun c => negb (N.eqb c (ch "*"))) v) with (drop_stars v). change (filter (fun c => negb (N.eqb c (ch "*"))) w) with (drop_stars w). rewrite (drop_none v V), (drop_none w W). cbn. rewrite app_nil_r. reflexivity.
Qed.
