(** Facts relating the parsing primitives to the text specifications. *)
From Coq Require Import String Ascii NArith List Bool Lia ZifyBool ZifyNat ZifyN.
From Verif Require Import Base.Str Base.Outcome Spec.TextSpec.
Import ListNotations.
Local Open Scope string_scope.
Local Open Scope N_scope.

Lemma sep_by_join c l : sep_by c l = join c l.
Proof. induction l as [|x l IH]; [reflexivity|]. destruct l; [reflexivity|]. simpl in *. rewrite IH. reflexivity. Qed.

(** All 256 bytes: digit tables agree with arithmetic on codes. *)
Definition ascii_all : list ascii := map ascii_of_N (map N.of_nat (seq 0 256)).
Lemma ascii_all_in a : In a ascii_all.
Proof.
  unfold ascii_all. rewrite map_map. apply in_map_iff. exists (N.to_nat (N_of_ascii a)).
  split.
  - rewrite N2Nat.id. apply ascii_N_embedding.
  - apply in_seq. pose proof (N_ascii_bounded a). lia.
Qed.

Definition opt_eqb (a b : option N) : bool :=
  match a, b with Some x, Some y => x =? y | None, None => true | _, _ => false end.
Lemma opt_eqb_eq a b : opt_eqb a b = true -> a = b.
Proof. destruct a, b; simpl; try discriminate; auto. intros H; apply N.eqb_eq in H; congruence. Qed.

Definition find_digit (tbl : list ascii) (a : ascii) : option N :=
  (fix go (i : N) (l : list ascii) := match l with [] => None | x :: r => if Ascii.eqb x a then Some i else go (i + 1) r end) 0 tbl.

Lemma get_nth_tbl (tbl : string) (n : nat) (a : ascii) :
  String.get n tbl = Some a <-> nth_error (list_ascii_of_string tbl) n = Some a.
Proof.
  revert n; induction tbl as [|x t IH]; intros [|n]; simpl; try tauto; try (split; discriminate). apply IH.
Qed.

Lemma digit_val_10 a d : digit_val 10 a = Some d <-> decimal_digit a d.
Proof.
  unfold decimal_digit. rewrite get_nth_tbl. split.
  - intros H.
    assert (S : forallb (fun a => match digit_val 10 a with
       | Some d => match nth_error (list_ascii_of_string "0123456789") (N.to_nat d) with Some b => Ascii.eqb a b | None => false end
       | None => true end) ascii_all = true) by (vm_compute; reflexivity).
    rewrite forallb_forall in S. specialize (S a (ascii_all_in a)). cbv beta in S. rewrite H in S.
    destruct (nth_error _ _); [|discriminate]. apply Ascii.eqb_eq in S; congruence.
  - intros H. assert (Hd : (N.to_nat d < 10)%nat).
    { change 10%nat with (length (list_ascii_of_string "0123456789")). apply nth_error_Some; congruence. }
    assert (S : forallb (fun n => match nth_error (list_ascii_of_string "0123456789") n with Some b => opt_eqb (digit_val 10 b) (Some (N.of_nat n)) | None => false end) (seq 0 10) = true) by (vm_compute; reflexivity).
    rewrite forallb_forall in S. specialize (S (N.to_nat d)). rewrite in_seq in S.
    specialize (S ltac:(lia)). cbv beta in S. rewrite H in S. apply opt_eqb_eq in S.
    rewrite S. f_equal. apply N2Nat.id.
Qed.

Lemma parse_digits_app radix max acc s t :
  parse_digits radix max acc (s ++ t) =
  match parse_digits radix max acc s with Some v => parse_digits radix max v t | None => None end.
Proof.
  revert acc; induction s as [|a s IH]; intros acc; cbn [append parse_digits]; [reflexivity|].
  destruct (digit_val radix a); [|reflexivity]. destruct (_ <=? max); [apply IH|reflexivity].
Qed.

Lemma parse_digits_le radix max acc s v : parse_digits radix max acc s = Some v -> acc <= max -> v <= max.
Proof.
  revert acc; induction s as [|a s IH]; intros acc; cbn [parse_digits].
  - intros H; inversion H; subst; auto.
  - destruct (digit_val radix a); [|discriminate]. destruct (N.leb_spec (acc * radix + n) max); [|discriminate].
    intros H' _. eapply IH; eauto.
Qed.

Section Denotes.
  Context (D : ascii -> N -> Prop) (radix : N).
  Context (HD : forall a d, digit_val radix a = Some d <-> D a d) (Hr : 1 <= radix).

  Lemma parse_digits_sound max s2 s1 v1 v :
    denotes D radix s1 v1 -> parse_digits radix max v1 s2 = Some v -> denotes D radix (s1 ++ s2) v.
  Proof.
    revert s1 v1; induction s2 as [|a s2 IH]; intros s1 v1 H1; cbn [parse_digits].
    - intros H; inversion H; subst. rewrite str_app_nil_r; exact H1.
    - destruct (digit_val radix a) as [d|] eqn:E; [|discriminate].
      destruct (_ <=? max) eqn:Em; [|discriminate]. intros H.
      assert (H' : denotes D radix (s1 ++ String a "") (radix * v1 + d)) by (constructor; [exact H1|apply HD; exact E]).
      replace (v1 * radix + d) with (radix * v1 + d) in H by lia.
      specialize (IH _ _ H' H). rewrite str_app_assoc in IH. exact IH.
  Qed.

  Lemma parse_digits_complete max s v :
    denotes D radix s v -> v <= max -> parse_digits radix max 0 s = Some v.
  Proof.
    induction 1 as [|s v a d H IH Ha]; intros Hm; [reflexivity|].
    rewrite parse_digits_app, IH by nia. cbn [parse_digits].
    apply HD in Ha. rewrite Ha. replace (v * radix + d) with (radix * v + d) by lia.
    replace (radix * v + d <=? max) with true by lia. reflexivity.
  Qed.

  Lemma parse_digits_iff max s v :
    parse_digits radix max 0 s = Some v <-> denotes D radix s v /\ v <= max.
  Proof.
    split.
    - intros H; split; [|eapply parse_digits_le; [exact H|lia]].
      apply (parse_digits_sound max s "" 0 v); [constructor|exact H].
    - intros [H1 H2]; apply parse_digits_complete; auto.
  Qed.
End Denotes.

Lemma parse_uint_10 max s v : parse_uint 10 max s = Some v <-> decimal_text s v /\ v <= max.
Proof.
  assert (HP : forall s v, parse_digits 10 max 0 s = Some v <-> denotes decimal_digit 10 s v /\ v <= max)
    by (intros; apply parse_digits_iff; [apply digit_val_10|lia]).
  unfold decimal_text. split.
  - destruct s as [|a r]; cbn [parse_uint]; [discriminate|].
    destruct (Ascii.eqb_spec a "+"%char) as [->|Hn].
    + destruct r as [|b r]; [discriminate|]. intros H; apply HP in H as [H1 H2].
      split; [|exact H2]. exists "+", (String b r). repeat split; auto. discriminate.
    + intros H; apply HP in H as [H1 H2]. split; [|exact H2].
      exists "", (String a r). repeat split; auto. discriminate.
  - intros [(sign & digits & Hs & -> & Hne & Hd) Hm].
    assert (H : parse_digits 10 max 0 digits = Some v) by (apply HP; auto).
    destruct Hs as [-> | ->]; cbn [append].
    + destruct digits as [|a r]; [congruence|]. cbn [parse_uint].
      destruct (Ascii.eqb_spec a "+"%char) as [->|Hn]; [|exact H].
      cbn [parse_digits] in H. change (digit_val 10 "+") with (@None N) in H. discriminate.
    + destruct digits as [|a r]; [congruence|]. exact H.
Qed.

Lemma parse_u8_iff s v : parse_u8 s = Some v <-> octet_text s v.
Proof. unfold parse_u8, octet_text. apply parse_uint_10. Qed.

Lemma be_value_app radix l d : be_value radix (l ++ [d]) = be_value radix l * radix + d.
Proof. unfold be_value. rewrite fold_left_app. reflexivity. Qed.

Lemma decimal_text_chars s v c : decimal_text s v -> digit_val 10 c = None -> c <> "+"%char -> str_has c s = false.
Proof.
  intros (sign & digits & Hs & -> & _ & Hd) Hc Hp. rewrite str_has_app.
  assert (H1 : str_has c digits = false).
  { clear Hs. induction Hd as [|s v a d H IH Ha]; [reflexivity|]. rewrite str_has_app, IH. cbn [str_has orb].
    apply digit_val_10 in Ha. destruct (Ascii.eqb_spec a c); [subst; congruence|reflexivity]. }
  rewrite H1, orb_false_r. destruct Hs as [-> | ->]; cbn [str_has orb]; [reflexivity|].
  destruct (Ascii.eqb_spec "+"%char c); [congruence|reflexivity].
Qed.
