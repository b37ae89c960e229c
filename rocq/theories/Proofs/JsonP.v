(** Reading back what was written. *)
From Coq Require Import String Ascii NArith ZArith List Bool Lia Floats.SpecFloat Sorted.
From Verif Require Import Base.Arith Base.Ord Base.BTree Base.Str Base.Outcome Model.Ip Model.Field Model.Log
  Model.DatasetTypes Model.Mitre Model.Rule Model.Command Model.Component Model.Payloads Model.Json Model.JsonField Model.JsonCommand
  Spec.JsonSpec.
Import ListNotations.
Local Open Scope string_scope.
Local Open Scope list_scope.

Lemma read_uint_ok bits n : (0 <= bits)%Z -> (Z.of_N n < 2 ^ bits)%Z -> read_uint bits (json_of_n n) = Some n.
Proof.
  intros B H. unfold read_uint, json_of_n. assert (E : (0 <=? Z.of_N n)%Z && (Z.of_N n <? 2 ^ bits)%Z = true) by lia.
  rewrite E, N2Z.id. reflexivity.
Qed.
Lemma read_u64_ok n : u64_ok n -> read_uint 64 (json_of_n n) = Some n.
Proof. unfold u64_ok. intros H. apply read_uint_ok; [lia|]. change (2 ^ 64)%Z with (Z.of_N (2 ^ 64)). lia. Qed.
Lemma read_u32_ok n : u32_ok n -> read_uint 32 (json_of_n n) = Some n.
Proof. unfold u32_ok. intros H. apply read_uint_ok; [lia|]. change (2 ^ 32)%Z with (Z.of_N (2 ^ 32)). lia. Qed.
Lemma read_i64_ok z : i64_ok z -> read_i64 (JInt z) = Some z.
Proof.
  unfold i64_ok, read_i64. intros H. assert (E : (- 2 ^ 63 <=? z)%Z && (z <? 2 ^ 63)%Z = true) by lia. rewrite E. reflexivity.
Qed.

Lemma mapM_some {A B} (f : A -> option B) l l' : mapM f l = Some l' <-> Forall2 (fun a b => f a = Some b) l l'.
Proof.
  revert l'. induction l as [|x r IH]; simpl; intros l'.
  - split; [intros [= <-]; constructor|inversion 1; reflexivity].
  - split.
    + destruct (f x) as [y|] eqn:E; [|discriminate]. destruct (mapM f r) as [ys|]; [|discriminate].
      intros [= <-]. constructor; auto. apply IH. reflexivity.
    + inversion 1 as [|? y ? ys E F]; subst. rewrite E. apply IH in F. rewrite F. reflexivity.
Qed.
Lemma mapM_none {A B} (f : A -> option B) l x : In x l -> f x = None -> mapM f l = None.
Proof.
  induction l as [|y r IH]; intros I E; [destruct I|]. simpl. destruct I as [->|I]; [rewrite E; reflexivity|].
  rewrite (IH I E). destruct (f y); reflexivity.
Qed.
Lemma mapM_map {A B C} (f : B -> option C) (w : A -> B) (g : A -> C) l :
  (forall x, In x l -> f (w x) = Some (g x)) -> mapM f (map w l) = Some (map g l).
Proof.
  intros H. induction l as [|x r IH]; [reflexivity|]. simpl. rewrite H by (left; reflexivity).
  rewrite IH by (intros y I; apply H; right; exact I). reflexivity.
Qed.
Lemma mapM_id {A B} (f : B -> option A) (w : A -> B) l : (forall x, In x l -> f (w x) = Some x) -> mapM f (map w l) = Some l.
Proof. intros H. rewrite (mapM_map f w (fun x => x) l H), map_id. reflexivity. Qed.
Lemma read_list_ok {A} (r : json -> option A) (w : A -> json) l :
  (forall x, In x l -> r (w x) = Some x) -> read_list r (json_of_list w l) = Some l.
Proof. exact (mapM_id r w l). Qed.
Lemma read_strings_ok l : read_list read_str (json_of_strings l) = Some l.
Proof. apply read_list_ok. reflexivity. Qed.
Lemma read_option_ok {A} (r : json -> option A) (w : A -> json) o :
  (forall x, w x <> JNull) -> (forall x, o = Some x -> r (w x) = Some x) -> read_option r (json_of_option w o) = Some o.
Proof.
  intros N H. destruct o as [a|]; [|reflexivity]. simpl. unfold read_option. rewrite (H a eq_refl).
  specialize (N a). destruct (w a); try reflexivity. congruence.
Qed.
Lemma opt_str_ok o : opt read_str (Some (json_of_option JStr o)) = Some o.
Proof. apply (read_option_ok read_str JStr o); [discriminate|reflexivity]. Qed.

(** a sorted list of entries is the map it builds *)
Lemma insert_last {A} (k : string) (v : A) m : Forall (fun e => cmp (fst e) k = Lt) m -> bt_insert k v m = m ++ [(k, v)].
Proof.
  induction m as [|[k' v'] r IH]; intros F; [reflexivity|]. inversion F as [|? ? L F']; subst. cbn [bt_insert fst app] in *.
  apply cmp_gt_lt in L. rewrite L, (IH F'). reflexivity.
Qed.
Lemma of_list_sorted {A} (m : bt string A) : bt_wf m -> bt_of_list m = m.
Proof.
  intros W. unfold bt_of_list.
  assert (G : forall (l a : bt string A), bt_wf (a ++ l) -> fold_left (fun m p => bt_insert (fst p) (snd p) m) l a = a ++ l).
  { induction l as [|[k v] r IH]; intros a Wa; simpl; [rewrite app_nil_r; reflexivity|].
    rewrite insert_last.
    - rewrite IH; rewrite <- app_assoc; [reflexivity|exact Wa].
    - clear - Wa. induction a as [|e a IH]; [constructor|]. inversion Wa as [|? ? S F]; subst. constructor; [|exact (IH S)].
      rewrite Forall_app in F. destruct F as [_ F]. inversion F; subst. assumption. }
  apply (G m []). exact W.
Qed.
Lemma read_map_some {A} (r : json -> option A) (w : A -> json) (g : A -> A) (m : bt string A) :
  bt_wf m -> (forall e, In e m -> r (w (snd e)) = Some (g (snd e))) ->
  read_map r (json_of_map w m) = Some (map (fun e => (fst e, g (snd e))) m).
Proof.
  intros W H. unfold read_map, json_of_map.
  rewrite (mapM_map _ _ (fun e : string * A => (fst e, g (snd e)))).
  2: { intros e I. simpl. rewrite (H e I). reflexivity. }
  rewrite of_list_sorted; [reflexivity|].
  clear H. induction m as [|e m IH]; [constructor|]. inversion W as [|? ? S F]; subst. simpl. constructor; [exact (IH S)|].
  rewrite Forall_map. eapply Forall_impl; [|exact F]. intros x L. exact L.
Qed.
Lemma read_map_ok {A} (r : json -> option A) (w : A -> json) (m : bt string A) :
  bt_wf m -> (forall e, In e m -> r (w (snd e)) = Some (snd e)) -> read_map r (json_of_map w m) = Some m.
Proof.
  intros W H. rewrite (read_map_some r w (fun x => x) m W H). f_equal. rewrite <- (map_id m) at 2. apply map_ext. intros [k v]. reflexivity.
Qed.
Lemma params_ok p : sorted p -> params_of_json (json_of_params p) = Some p.
Proof. intros W. apply read_map_ok; [exact W|reflexivity]. Qed.

(** * Addresses and fields *)
Lemma ip_text_fails s : ip_of_json (JStr s) = None /\ ip_of_content (JStr s) = None.
Proof.
  unfold ip_of_json, ip_of_content, read_enum. cbn [variant fst snd pick].
  destruct (String.eqb "V4" s), (String.eqb "V6" s); split; reflexivity.
Qed.
Lemma ip_never a : ip_of_json (json_of_ip a) = None.
Proof. exact (proj1 (ip_text_fails _)). Qed.

Lemma is_finite_iff x : is_finite x = true <-> finite x.
Proof.
  unfold finite. destruct x; simpl; split; try congruence; intros H; splits; try congruence; try (intros; congruence).
  all: destruct H as [H1 H2]; congruence.
Qed.
Lemma field_reads io f g : field_ok f -> (field_of_json io (json_of_field f) = Some g <-> becomes io f g).
Proof.
  intros K. destruct f; cbn [json_of_field].
  - split; [intros [= <-]; constructor|inversion 1; reflexivity].
  - split; [intros [= <-]; constructor|inversion 1; reflexivity].
  - split; [intros [= <-]; constructor|inversion 1; reflexivity].
  - split; [intros [= <-]; constructor|inversion 1; reflexivity].
  - split; [intros [= <-]; constructor|inversion 1; reflexivity].
  - split; [intros [= <-]; constructor|inversion 1; reflexivity].
  - simpl in K. unfold u64_ok in K. unfold json_of_n. cbn [field_of_json read_number].
    change (2 ^ 64)%Z with (Z.of_N (2 ^ 64)).
    assert (E : (0 <=? Z.of_N n)%Z && (Z.of_N n <? Z.of_N (2 ^ 64))%Z = true) by lia. rewrite E, N2Z.id.
    split; [intros [= <-]; constructor|inversion 1; reflexivity].
  - simpl in K. unfold i64_ok in K. cbn [field_of_json read_number].
    destruct (Z.ltb_spec z 0) as [L|L].
    + assert (E : (0 <=? z)%Z && (z <? 2 ^ 64)%Z = false) by lia. rewrite E.
      assert (E2 : (- 2 ^ 63 <=? z)%Z && true = true) by lia. rewrite E2.
      split; [intros [= <-]; constructor; exact L|]. inversion 1; subst; [lia|reflexivity].
    + assert (E : (0 <=? z)%Z && (z <? 2 ^ 64)%Z = true) by (change (2 ^ 64)%Z with (2 * 2 ^ 63)%Z; lia). rewrite E.
      split.
      * intros [= <-]. rewrite <- (Z2N.id z L) at 1. constructor.
      * inversion 1; subst; [rewrite N2Z.id; reflexivity|lia].
  - cbn [json_of_field]. unfold json_of_f64. destruct (is_finite f) eqn:F.
    + apply is_finite_iff in F. cbn [field_of_json read_number]. split.
      * destruct (reread io f) as [y|] eqn:E; [|discriminate]. intros [= <-]. constructor; assumption.
      * inversion 1; subst; [|contradiction]. unfold float_reads in *. rewrite H2. reflexivity.
    + assert (~ finite f) by (rewrite <- is_finite_iff; congruence). cbn [field_of_json].
      split; [intros [= <-]; constructor; assumption|]. inversion 1; subst; [contradiction|reflexivity].
  - simpl in K. unfold i64_ok in K. cbn [field_of_json read_number].
    destruct (Z.ltb_spec millis 0) as [L|L].
    + assert (E : (0 <=? millis)%Z && (millis <? 2 ^ 64)%Z = false) by lia. rewrite E.
      assert (E2 : (- 2 ^ 63 <=? millis)%Z && true = true) by lia. rewrite E2.
      split; [intros [= <-]; constructor; exact L|]. inversion 1; subst; [lia|reflexivity].
    + assert (E : (0 <=? millis)%Z && (millis <? 2 ^ 64)%Z = true) by (change (2 ^ 64)%Z with (2 * 2 ^ 63)%Z; lia). rewrite E.
      split.
      * intros [= <-]. rewrite <- (Z2N.id millis L) at 1. constructor.
      * inversion 1; subst; [rewrite N2Z.id; reflexivity|lia].
  - unfold json_of_strings, json_of_list. cbn [field_of_json]. change (read_list read_str (JArr (map JStr l))) with (read_list read_str (json_of_strings l)).
    rewrite read_strings_ok. split; [intros [= <-]; constructor|inversion 1; reflexivity].
  - split; [intros [= <-]; constructor|inversion 1; reflexivity].
Qed.
