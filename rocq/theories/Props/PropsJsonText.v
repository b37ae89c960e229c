(** C192: documents as JSON texts. *)
From Coq Require Import String Ascii NArith ZArith List Bool Arith Lia Floats.SpecFloat.
From Verif Require Import Base.Arith Base.Str Base.Ord Base.BTree Base.Outcome Model.Ip Model.Field Model.Log Model.DatasetTypes Model.Rule Model.Command
  Model.Component Model.Payloads Model.Sigma Model.Schema Model.Events Model.Metrics Model.Json Model.JsonField Model.JsonCommand Model.JsonEvent
  Model.JsonMore Model.JsonRule Model.JsonSigma Model.Testing Model.GeoIp Model.JsonText
  Spec.TextSpec Spec.Utf8Spec Spec.CanonicalSpec Spec.JsonSpec Spec.JsonTextSpec Proofs.RuleP Proofs.SigmaP Props.PropsDepth Props.PropsJson Props.PropsSigmaJson Props.PropsCanonical.
Import ListNotations.
Local Open Scope string_scope.
Local Open Scope list_scope.
Local Notation "a +++ b" := (String.append a b) (at level 60, right associativity).

(** * One reading of a text *)

Lemma last_same s : forall t a b, (s +++ String a "") = (t +++ String b "") -> s = t /\ a = b.
Proof.
  induction s as [|x s IH]; intros [|y t] a b E; cbn in E.
  - injection E as ->. auto.
  - injection E as -> E. destruct t; discriminate.
  - injection E as -> E. destruct s; discriminate.
  - injection E as -> E. apply IH in E as (-> & ->). auto.
Qed.
Lemma denotes_same (D : ascii -> N -> Prop) r s v w : (forall a d e, D a d -> D a e -> d = e) -> denotes D r s v -> denotes D r s w -> v = w.
Proof.
  intros F H. revert w. induction H as [|s v a d H IH X]; intros w G.
  - inversion G as [|s' v' a' d' H' X' E]; [reflexivity|destruct s'; discriminate].
  - inversion G as [E|s' v' a' d' H' X' E]; [destruct s; discriminate|]. apply last_same in E as (-> & ->). rewrite (IH _ H'), (F _ _ _ X X'). reflexivity.
Qed.
Lemma decimal_same a d e : decimal_digit a d -> decimal_digit a e -> d = e.
Proof.
  rewrite !dec_digits. intros (L & ->) (M & E). assert (L' : (d < 16)%N) by lia. assert (M' : (e < 16)%N) by lia. apply upto16 in L', M'. cbn [In] in L', M'.
  repeat destruct L' as [<-|L']; try contradiction; repeat destruct M' as [<-|M']; try contradiction; try reflexivity; vm_compute in E; discriminate.
Qed.
Lemma hex_same a d e : hex_digit a d -> hex_digit a e -> d = e.
Proof.
  intros L M. assert (L' : (d < 16)%N) by (destruct L as [L|L]; apply get_short in L; cbn in L; lia).
  assert (M' : (e < 16)%N) by (destruct M as [M|M]; apply get_short in M; cbn in M; lia). apply upto16 in L', M'. cbn [In] in L', M'.
  repeat destruct L' as [<-|L']; try contradiction; repeat destruct M' as [<-|M']; try contradiction; try reflexivity;
    destruct L as [L|L]; vm_compute in L; injection L as <-; destruct M as [M|M]; vm_compute in M; discriminate.
Qed.
Lemma hex4_same h n m : hex4 h n -> hex4 h m -> n = m.
Proof. intros (_ & H) (_ & G). exact (denotes_same _ _ _ _ _ hex_same H G). Qed.
Lemma app_same a b r q : String.length a = String.length b -> (a +++ r) = (b +++ q) -> a = b /\ r = q.
Proof.
  revert b. induction a as [|x a IH]; intros [|y b] L E; try discriminate; [auto|]. cbn in L, E. injection L as L. injection E as -> E.
  destruct (IH _ L E) as (-> & ->). auto.
Qed.
Lemma escape_same e c d : In (e, c) escapes -> In (e, d) escapes -> c = d.
Proof.
  cbn. intros H G. repeat destruct H as [H|H]; try contradiction; injection H as <- <-; repeat destruct G as [G|G]; try contradiction;
    injection G; intros; subst; try reflexivity; discriminate.
Qed.
Lemma escape_not e c : In (e, c) escapes -> e <> "u"%char.
Proof. cbn. intros H ->. repeat destruct H as [H|H]; try contradiction; discriminate. Qed.

Lemma hex4_app h n h' n' r r' : hex4 h n -> hex4 h' n' -> (h +++ r) = (h' +++ r') -> n' = n /\ r = r'.
Proof.
  intros X X' E. assert (L : String.length h = String.length h') by (destruct X, X'; congruence). destruct (app_same _ _ _ _ L E) as (<- & ->).
  split; [exact (hex4_same _ _ _ X' X)|reflexivity].
Qed.

Lemma chars_same s t : chars s t -> forall s' t' r r', chars s' t' -> (s +++ quote +++ r) = (s' +++ quote +++ r') -> t = t' /\ r = r'.
Proof.
  assert (U : forall x y, "\u" +++ x = "\u" +++ y -> x = y) by (intros x y E; cbn in E; congruence).
  induction 1 as [|c s t L Q B H IH|e c s t I H IH|h n s t X NS H IH|h n l m s t X R Y R' H IH]; intros s' t' r r' G E;
    inversion G as [|c' u v L' Q' B' G'|e' c' u v I' G'|h' n' u v X' NS' G'|h' n' l' m' u v X' R1 Y' R2 G']; subst s' t'; rewrite ?str_app_assoc in E;
    try (cbn in E; unfold chr, quote in *; cbn in *; congruence).
  - cbn in E. split; congruence.
  - cbn in E. injection E as <- E. destruct (IH _ _ _ _ G' E) as (-> & ->). auto.
  - cbn in E. injection E as <- E. destruct (IH _ _ _ _ G' E) as (-> & ->). rewrite (escape_same _ _ _ I I'). auto.
  - exfalso. cbn in E. injection E as E1 E. exact (escape_not _ _ I E1).
  - exfalso. cbn in E. injection E as E1 E. exact (escape_not _ _ I E1).
  - exfalso. cbn in E. injection E as E1 E. symmetry in E1. exact (escape_not _ _ I' E1).
  - apply U in E. destruct (hex4_app _ _ _ _ _ _ X X' E) as (-> & E').
    destruct (IH _ _ _ _ G' E') as (-> & ->). auto.
  - apply U in E. destruct (hex4_app _ _ _ _ _ _ X X' E) as (-> & E').
    exfalso. apply NS. unfold surrogate. lia.
  - exfalso. cbn in E. injection E as E1 E. symmetry in E1. exact (escape_not _ _ I' E1).
  - apply U in E. destruct (hex4_app _ _ _ _ _ _ X X' E) as (-> & E').
    exfalso. apply NS'. unfold surrogate. lia.
  - apply U in E. destruct (hex4_app _ _ _ _ _ _ X X' E) as (-> & E').
    apply U in E'. destruct (hex4_app _ _ _ _ _ _ Y Y' E') as (-> & E2).
    destruct (IH _ _ _ _ G' E2) as (-> & ->). auto.
Qed.

(** white space ends where something else begins *)
Definition dark (s : string) : Prop := match s with "" => True | String c _ => ~ In c [chr 32; chr 9; chr 10; chr 13] end.
Lemma white_same a : white a -> forall b r r', white b -> dark r -> dark r' -> (a +++ r) = (b +++ r') -> r = r'.
Proof.
  induction 1 as [|c a I H IH]; intros b r r' G D D' E.
  - inversion G as [|c b' I G']; subst b; [exact E|]. cbn in E. subst r. exfalso. exact (D I).
  - inversion G as [|c' b' I' G']; subst b; cbn in E.
    + subst r'. exfalso. exact (D' I).
    + injection E as _ E. exact (IH _ _ _ G' D D' E).
Qed.

(** a number ends where no character of one follows *)
Definition numeric : list ascii := ["0"; "1"; "2"; "3"; "4"; "5"; "6"; "7"; "8"; "9"; "-"; "+"; "."; "e"; "E"]%char.
Definition stops (s : string) : Prop := match s with "" => True | String c _ => ~ In c numeric end.
Inductive all_numeric : string -> Prop :=
| an_nil : all_numeric "" | an_more c s : In c numeric -> all_numeric s -> all_numeric (String c s).
Lemma numeric_same a : all_numeric a -> forall b r r', all_numeric b -> stops r -> stops r' -> (a +++ r) = (b +++ r') -> a = b /\ r = r'.
Proof.
  induction 1 as [|c a I H IH]; intros b r r' G D D' E.
  - inversion G as [|c b' I G']; subst b; [auto|]. cbn in E. subst r. exfalso. exact (D I).
  - inversion G as [|c' b' I' G']; subst b; cbn in E.
    + subst r'. exfalso. exact (D' I).
    + injection E as <- E. destruct (IH _ _ _ G' D D' E) as (-> & ->). auto.
Qed.
Lemma numeric_app a b : all_numeric a -> all_numeric b -> all_numeric (a +++ b).
Proof. induction 1; cbn; [auto|]. intros. constructor; auto. Qed.
Definition ten : list ascii := ["0"; "1"; "2"; "3"; "4"; "5"; "6"; "7"; "8"; "9"]%char.
Lemma digit_ten a d : decimal_digit a d -> In a ten.
Proof.
  intros (L & ->)%dec_digits. assert (L' : (d < 16)%N) by lia. apply upto16 in L'. cbn [In] in L'.
  repeat destruct L' as [<-|L']; try contradiction; try lia; vm_compute; tauto.
Qed.
Inductive all_ten : string -> Prop := at_nil : all_ten "" | at_more c s : In c ten -> all_ten s -> all_ten (String c s).
Lemma ten_app a b : all_ten a -> all_ten b -> all_ten (a +++ b).
Proof. induction 1; cbn; [auto|]. intros. constructor; auto. Qed.
Lemma digits_ten s n : denotes decimal_digit 10 s n -> all_ten s.
Proof. induction 1 as [|s v a d H IH X]; [constructor|]. apply ten_app; [exact IH|]. constructor; [exact (digit_ten _ _ X)|constructor]. Qed.
Lemma ten_numeric s : all_ten s -> all_numeric s.
Proof. induction 1 as [|c s I]; constructor; [|assumption]. unfold ten, numeric in *. cbn in *. tauto. Qed.
Lemma integer_numeric s z : integer s z -> all_numeric s.
Proof.
  intros (n & [(_ & H & _)|(r & -> & _ & H & _)]); [apply ten_numeric, (digits_ten _ _ H)|].
  constructor; [cbn; tauto|apply ten_numeric, (digits_ten _ _ H)].
Qed.
Lemma sign_numeric s : sign s -> all_numeric s.
Proof. intros [->| ->]; [constructor|]. constructor; [cbn; tauto|constructor]. Qed.
Lemma fraction_numeric s : fraction s -> all_numeric s.
Proof. intros [->|(r & -> & _ & n & H)]; [constructor|]. constructor; [cbn; tauto|apply ten_numeric, (digits_ten _ _ H)]. Qed.
Lemma exponent_numeric s : exponent s -> all_numeric s.
Proof.
  intros [->|(e & sg & r & -> & E & S1 & _ & n & H)]; [constructor|]. constructor; [destruct E as [->| ->]; cbn; tauto|].
  apply numeric_app; [|apply ten_numeric, (digits_ten _ _ H)]. destruct S1 as [->|[->| ->]]; [constructor|..]; (constructor; [cbn; tauto|constructor]).
Qed.
Lemma part_numeric s : integer_part s -> all_numeric s.
Proof. intros (_ & (n & H) & _). apply ten_numeric, (digits_ten _ _ H). Qed.
Lemma float_numeric s : float s -> all_numeric s.
Proof.
  intros (sg & i & f & e & -> & S1 & I & F & X & _). repeat apply numeric_app;
    [apply sign_numeric, S1|apply part_numeric, I|apply fraction_numeric, F|apply exponent_numeric, X].
Qed.
Fixpoint has_char (c : ascii) (s : string) : Prop := match s with "" => False | String d r => c = d \/ has_char c r end.
Lemma has_app c a b : has_char c (a +++ b) <-> has_char c a \/ has_char c b.
Proof. induction a as [|x a IH]; cbn; [tauto|rewrite IH; tauto]. Qed.
Lemma ten_has c s : all_ten s -> has_char c s -> In c ten.
Proof. induction 1; cbn [has_char]; [contradiction|]. intros [->|G]; auto. Qed.
Lemma integer_has c s z : integer s z -> has_char c s -> c = "-"%char \/ In c ten.
Proof.
  intros (n & [(_ & H & _)|(r & -> & _ & H & _)]) G; apply digits_ten in H; [right; exact (ten_has _ _ H G)|].
  cbn [has_char] in G. destruct G as [->|G]; [auto|right; exact (ten_has _ _ H G)].
Qed.
Lemma integer_or_float s z : integer s z -> float s -> False.
Proof.
  intros I (sg & i & f & e & E & S1 & _ & F & X & [N0|[N0|N0]]).
  - destruct F as [->|(r & -> & _)]; [congruence|]. assert (G : has_char "." s) by (subst s; rewrite !has_app; cbn; tauto).
    apply (integer_has _ _ _ I) in G as [G|G]; [discriminate|]. unfold ten in G. cbn in G. repeat destruct G as [G|G]; try discriminate; contradiction.
  - destruct X as [->|(x & sx & r & -> & C & _)]; [congruence|]. assert (G : has_char x s) by (subst s; rewrite !has_app; cbn; tauto).
    apply (integer_has _ _ _ I) in G. destruct C as [->| ->]; (destruct G as [G|G]; [discriminate|]); unfold ten in G; cbn in G; repeat destruct G as [G|G]; try discriminate; contradiction.
  - subst s. rewrite N0 in I. destruct I as (n & [(_ & H & _)|(r & Q & _ & H & Z & _)]).
    + apply digits_ten in H. inversion H; subst. unfold ten in *. cbn in *. intuition discriminate.
    + injection Q as <-. apply Z. eapply (denotes_same _ 10 "0" n 0%N decimal_same H). exact (denotes_snoc decimal_digit 10 "" 0 "0" 0 (denotes_nil _ _) eq_refl).
Qed.
Lemma integer_same s z y : integer s z -> integer s y -> z = y.
Proof.
  intros (n & [(_ & H & ->)|(r & -> & _ & H & _ & ->)]) (m & [(_ & G & ->)|(q & E & _ & G & _ & ->)]).
  - rewrite (denotes_same _ _ _ _ _ decimal_same H G). reflexivity.
  - subst s. apply digits_ten in H. inversion H; subst. unfold ten in *. cbn in *. intuition discriminate.
  - apply digits_ten in G. inversion G; subst. unfold ten in *. cbn in *. intuition discriminate.
  - injection E as ->. rewrite (denotes_same _ _ _ _ _ decimal_same H G). reflexivity.
Qed.

Section reading.
  Context (fl : string -> f64 -> Prop) (FL : forall s x y, fl s x -> fl s y -> x = y).
  Scheme value_rect3 := Induction for value Sort Prop with elements_rect3 := Induction for elements Sort Prop with members_rect3 := Induction for members Sort Prop.
  Combined Scheme value_induction3 from value_rect3, elements_rect3, members_rect3.

  Lemma integer_head s z : integer s z -> exists c r, s = String c r /\ In c numeric.
  Proof.
    intros I. pose proof (integer_numeric _ _ I) as A. destruct s as [|c s]; [|inversion A; eauto].
    destruct I as (n & [((X & _) & _)|(r & X & _)]); [congruence|discriminate].
  Qed.
  Lemma float_head s : float s -> exists c r, s = String c r /\ In c numeric.
  Proof.
    intros I. pose proof (float_numeric _ I) as A. destruct s as [|c s]; [|inversion A; eauto].
    destruct I as (sg & i & f & e & E & _ & (X & _) & _). destruct sg, i; try discriminate. congruence.
  Qed.
  Definition heads : list ascii := ["n"; "t"; "f"; "["; "{"; "034"]%char ++ numeric.
  Lemma value_head s j : value fl s j -> exists c r, s = String c r /\ In c heads.
  Proof.
    unfold heads. inversion 1 as [| | |s' z I|s' x I F|s' t C|w W|s' l L|w W|s' l L]; subst;
      try (eexists; eexists; split; [reflexivity|cbn; tauto]).
    - destruct (integer_head _ _ I) as (c & r & -> & N0). exists c, r. rewrite in_app_iff. auto.
    - destruct (float_head _ I) as (c & r & -> & N0). exists c, r. rewrite in_app_iff. auto.
  Qed.
  Lemma heads_dark s j r : value fl s j -> dark (s +++ r).
  Proof.
    intros (c & q & -> & I)%value_head. cbn [String.append dark]. unfold heads, numeric, chr in *. cbn in I |- *.
    intros J. repeat destruct I as [<-|I]; try contradiction; repeat destruct J as [J|J]; try contradiction; discriminate.
  Qed.
  Definition not_head (c : ascii) : Prop := ~ In c heads.
  Lemma value_not_head s j c r q : value fl s j -> not_head c -> (s +++ r) = String c q -> False.
  Proof. intros (d & t & -> & I)%value_head N0 E. cbn in E. injection E as -> _. exact (N0 I). Qed.
  Lemma closes c : In c ["]"; "}"; ","; ":"]%char -> not_head c.
  Proof. unfold not_head, heads, numeric. cbn. intros I J. repeat destruct I as [<-|I]; try contradiction; repeat destruct J as [J|J]; try contradiction; discriminate. Qed.
  (** after white space or one of these a number has ended *)
  Lemma white_stops w r : white w -> stops r -> stops (w +++ r).
  Proof.
    intros [|c s I W] S1; [exact S1|]. cbn [String.append stops]. unfold numeric, chr in *. cbn in I |- *.
    intros J. repeat destruct I as [<-|I]; try contradiction; repeat destruct J as [J|J]; try contradiction; discriminate.
  Qed.
  Lemma close_stops c r : In c ["]"; "}"; ","; ":"]%char -> stops (String c r).
  Proof. cbn [stops]. unfold numeric. cbn. intros I J. repeat destruct I as [<-|I]; try contradiction; repeat destruct J as [J|J]; try contradiction; discriminate. Qed.
  Lemma close_dark c r : In c ["]"; "}"; ","; ":"; "034"]%char -> dark (String c r).
  Proof. cbn [dark]. unfold chr. cbn. intros I J. repeat destruct I as [<-|I]; try contradiction; repeat destruct J as [J|J]; try contradiction; discriminate. Qed.

  Definition one_value s j := forall s' j' r r', value fl s' j' -> (s +++ r) = (s' +++ r') -> stops r -> stops r' -> j = j' /\ r = r'.
  Definition one_elements s l := forall s' l' r r', elements fl s' l' -> (s +++ "]" +++ r) = (s' +++ "]" +++ r') -> l = l' /\ r = r'.
  Definition one_members s (l : list (string * json)) := forall s' l' r r', members fl s' l' -> (s +++ "}" +++ r) = (s' +++ "}" +++ r') -> l = l' /\ r = r'.

  (** what is inside of brackets begins, after white space, with something else than a closing bracket *)
  Definition begun (s : string) : Prop := exists a c t, s = (a +++ String c t) /\ white a /\ In c heads.
  Lemma elements_begun s l : elements fl s l -> begun s.
  Proof.
    inversion 1 as [a v b j W V|a v b j t l' W V]; subst; destruct (value_head _ _ V) as (c & r & -> & I); exists a, c; eexists; (split; [reflexivity|auto]).
  Qed.
  Lemma members_begun s l : members fl s l -> begun s.
  Proof. unfold heads. inversion 1 as [a k key b c v d j W|a k key b c v d j t l' W]; subst; exists a, "034"%char; eexists; (split; [reflexivity|split; [assumption|cbn; tauto]]). Qed.
  Lemma begun_not_empty s w c r r' : begun s -> white w -> In c ["]"; "}"]%char -> (w +++ String c r) = (s +++ r') -> False.
  Proof.
    intros (a & d & t & -> & A & I) W C E. rewrite str_app_assoc in E. cbn [String.append] in E.
    assert (D : dark (String d (t +++ r'))).
    { cbn [dark]. unfold heads, numeric, chr in *. cbn in I |- *. intros J.
      repeat destruct I as [<-|I]; try contradiction; repeat destruct J as [J|J]; try contradiction; discriminate. }
    apply white_same in E; [|assumption|assumption|apply close_dark; cbn in C |- *; tauto|exact D]. injection E as -> _.
    refine (closes d _ I). cbn in C |- *. tauto.
  Qed.

  Ltac close := solve [cbn; tauto].
  Ltac white_end := apply white_stops; [assumption|apply close_stops; close].
  Ltac value_read IH V' E :=
    let X := fresh in pose proof (IH _ _ _ _ V' E) as X; clear E; rename X into E;
    match type of E with ?P -> ?Q -> _ => let p := fresh in let q := fresh in assert (p : P) by white_end; assert (q : Q) by white_end; specialize (E p q); clear p q end.
  Ltac nohead I E :=
    first [apply integer_head in I | apply float_head in I];
    let c := fresh in let q := fresh in let N0 := fresh in destruct I as (c & q & -> & N0); unfold numeric in N0; cbn in N0, E;
    exfalso; repeat destruct N0 as [<-|N0]; try contradiction; discriminate E.
  Lemma one_reading : (forall s j, value fl s j -> one_value s j) /\ (forall s l, elements fl s l -> one_elements s l) /\ (forall s l, members fl s l -> one_members s l).
  Proof.
    apply (value_induction3 fl (fun s j _ => one_value s j) (fun s l _ => one_elements s l) (fun s l _ => one_members s l)).
    1-10: intros; intros s' j' r r' G E P P'; rewrite ?str_app_assoc in E.
    - (* null *) inversion G as [| | |s2 z I|s2 x I F|s2 t C|w W|s2 l L|w W|s2 l L]; subst s' j'; try discriminate E; try (nohead I E). cbn in E. split; congruence.
    - inversion G as [| | |s2 z I|s2 x I F|s2 t C|w W|s2 l L|w W|s2 l L]; subst s' j'; try discriminate E; try (nohead I E). cbn in E. split; congruence.
    - inversion G as [| | |s2 z I|s2 x I F|s2 t C|w W|s2 l L|w W|s2 l L]; subst s' j'; try discriminate E; try (nohead I E). cbn in E. split; congruence.
    - rename i into J. inversion G as [| | |s2 z' I|s2 x I F|s2 t C|w W|s2 l L|w W|s2 l L]; subst s' j'; try (symmetry in E; nohead J E).
      + destruct (numeric_same _ (integer_numeric _ _ J) _ _ _ (integer_numeric _ _ I) P P' E) as (<- & <-). rewrite (integer_same _ _ _ J I). auto.
      + destruct (numeric_same _ (integer_numeric _ _ J) _ _ _ (float_numeric _ I) P P' E) as (<- & <-). exfalso. exact (integer_or_float _ _ J I).
    - rename f into J. inversion G as [| | |s2 z' I|s2 x' I F|s2 t C|w W|s2 l L|w W|s2 l L]; subst s' j'; try (symmetry in E; nohead J E).
      + destruct (numeric_same _ (float_numeric _ J) _ _ _ (integer_numeric _ _ I) P P' E) as (<- & <-). exfalso. exact (integer_or_float _ _ I J).
      + destruct (numeric_same _ (float_numeric _ J) _ _ _ (float_numeric _ I) P P' E) as (<- & <-). rewrite (FL _ _ _ f0 F). auto.
    - inversion G as [| | |s2 z' I|s2 x' I F|s2 t' C|w W|s2 l L|w W|s2 l L]; subst s' j'; try discriminate E; try (nohead I E).
      rewrite !str_app_assoc in E. apply (f_equal (fun s => match s with "" => "" | String _ r => r end)) in E.
      change (s +++ quote +++ r = s2 +++ quote +++ r') in E. destruct (chars_same _ _ c _ _ _ _ C E) as (-> & ->). auto.
    - inversion G as [| | |s2 z' I|s2 x' I F|s2 t' C|w' W|s2 l L|w' W|s2 l L]; subst s' j'; try discriminate E; try (nohead I E); rewrite ?str_app_assoc in E;
      apply (f_equal (fun s => match s with "" => "" | String _ r => r end)) in E.
      + change (w +++ "]" +++ r = w' +++ "]" +++ r') in E. apply white_same in E; [|assumption|assumption|apply close_dark; close|apply close_dark; close].
        cbn in E. split; congruence.
      + exfalso. exact (begun_not_empty _ w "]" r _ (elements_begun _ _ L) w0 ltac:(close) E).
    - rename H into IH. inversion G as [| | |s2 z' I|s2 x' I F|s2 t' C|w' W|s2 l' L|w' W|s2 l' L]; subst s' j'; try discriminate E; try (nohead I E); rewrite ?str_app_assoc in E;
      apply (f_equal (fun s => match s with "" => "" | String _ r => r end)) in E.
      + exfalso. symmetry in E. exact (begun_not_empty _ w' "]" r' _ (elements_begun _ _ e) W ltac:(close) E).
      + change (s +++ "]" +++ r = s2 +++ "]" +++ r') in E. destruct (IH _ _ _ _ L E) as (-> & ->). auto.
    - inversion G as [| | |s2 z' I|s2 x' I F|s2 t' C|w' W|s2 l L|w' W|s2 l L]; subst s' j'; try discriminate E; try (nohead I E); rewrite ?str_app_assoc in E;
      apply (f_equal (fun s => match s with "" => "" | String _ r => r end)) in E.
      + change (w +++ "}" +++ r = w' +++ "}" +++ r') in E. apply white_same in E; [|assumption|assumption|apply close_dark; close|apply close_dark; close].
        cbn in E. split; congruence.
      + exfalso. exact (begun_not_empty _ w "}" r _ (members_begun _ _ L) w0 ltac:(close) E).
    - rename H into IH. inversion G as [| | |s2 z' I|s2 x' I F|s2 t' C|w' W|s2 l' L|w' W|s2 l' L]; subst s' j'; try discriminate E; try (nohead I E); rewrite ?str_app_assoc in E;
      apply (f_equal (fun s => match s with "" => "" | String _ r => r end)) in E.
      + exfalso. symmetry in E. exact (begun_not_empty _ w' "}" r' _ (members_begun _ _ m) W ltac:(close) E).
      + change (s +++ "}" +++ r = s2 +++ "}" +++ r') in E. destruct (IH _ _ _ _ L E) as (-> & ->). auto.
    - intros a s b j A V IH B s' l' r r' G E. rewrite !str_app_assoc in E.
      inversion G as [a' v' b' j' A' V' B'|a' v' b' j' t' l2 A' V' B' L']; subst s' l'; rewrite !str_app_assoc in E;
        (apply white_same in E; [|assumption|assumption|eapply heads_dark; eassumption|eapply heads_dark; eassumption]);
        value_read IH V' E; destruct E as (-> & E); (apply white_same in E; [|assumption|assumption|apply close_dark; close|apply close_dark; close]); cbn in E; [split; congruence|discriminate].
    - intros a s b j t l A V IH B L IH2 s' l' r r' G E. rewrite !str_app_assoc in E.
      inversion G as [a' v' b' j' A' V' B'|a' v' b' j' t' l2 A' V' B' L']; subst s' l'; rewrite !str_app_assoc in E;
        (apply white_same in E; [|assumption|assumption|eapply heads_dark; eassumption|eapply heads_dark; eassumption]);
        value_read IH V' E; destruct E as (-> & E); (apply white_same in E; [|assumption|assumption|apply close_dark; close|apply close_dark; close]); [discriminate|].
      apply (f_equal (fun s => match s with "" => "" | String _ r => r end)) in E. change (t +++ "]" +++ r = t' +++ "]" +++ r') in E.
      destruct (IH2 _ _ _ _ L' E) as (-> & ->). auto.
    - intros a k key b c s d j A K B C V IH D s' l' r r' G E. rewrite !str_app_assoc in E.
      inversion G as [a' k' key' b' c' v' d' j' A' K' B' C' V' D'|a' k' key' b' c' v' d' j' t' l2 A' K' B' C' V' D' L']; subst s' l'; rewrite !str_app_assoc in E;
        (apply white_same in E; [|assumption|assumption|apply close_dark; close|apply close_dark; close]);
        apply (f_equal (fun s => match s with "" => "" | String _ r => r end)) in E; cbn [String.append quote] in E;
        (eapply chars_same in E; [|eassumption|eassumption]); destruct E as (-> & E);
        (apply white_same in E; [|assumption|assumption|apply close_dark; close|apply close_dark; close]);
        apply (f_equal (fun s => match s with "" => "" | String _ r => r end)) in E; cbn [String.append] in E;
        (apply white_same in E; [|assumption|assumption|eapply heads_dark; eassumption|eapply heads_dark; eassumption]);
        value_read IH V' E; destruct E as (-> & E); (apply white_same in E; [|assumption|assumption|apply close_dark; close|apply close_dark; close]); cbn in E; [split; congruence|discriminate].
    - intros a k key b c s d j t l A K B C V IH D L IH2 s' l' r r' G E. rewrite !str_app_assoc in E.
      inversion G as [a' k' key' b' c' v' d' j' A' K' B' C' V' D'|a' k' key' b' c' v' d' j' t' l2 A' K' B' C' V' D' L']; subst s' l'; rewrite !str_app_assoc in E;
        (apply white_same in E; [|assumption|assumption|apply close_dark; close|apply close_dark; close]);
        apply (f_equal (fun s => match s with "" => "" | String _ r => r end)) in E; cbn [String.append quote] in E;
        (eapply chars_same in E; [|eassumption|eassumption]); destruct E as (-> & E);
        (apply white_same in E; [|assumption|assumption|apply close_dark; close|apply close_dark; close]);
        apply (f_equal (fun s => match s with "" => "" | String _ r => r end)) in E; cbn [String.append] in E;
        (apply white_same in E; [|assumption|assumption|eapply heads_dark; eassumption|eapply heads_dark; eassumption]);
        value_read IH V' E; destruct E as (-> & E); (apply white_same in E; [|assumption|assumption|apply close_dark; close|apply close_dark; close]); [discriminate|].
      apply (f_equal (fun s => match s with "" => "" | String _ r => r end)) in E. change (t +++ "}" +++ r = t' +++ "}" +++ r') in E.
      destruct (IH2 _ _ _ _ L' E) as (-> & ->). auto.
  Qed.

  Lemma white_alone a : white a -> stops a.
  Proof. intros W. rewrite <- (str_app_nil_r a). apply white_stops; [exact W|exact I]. Qed.
  Lemma one_document : forall s j j', document fl s j -> document fl s j' -> j = j'.
  Proof.
    intros s j j' (a & v & b & -> & A & V & B) (a' & v' & b' & E & A' & V' & B').
    apply white_same in E; [|assumption|assumption|eapply heads_dark; eassumption|eapply heads_dark; eassumption].
    refine (proj1 (proj1 one_reading _ _ V _ _ _ _ V' E _ _)); apply white_alone; assumption.
  Qed.
End reading.
(** A text is at most one document *)
Theorem C192_unambiguous : forall fl : string -> f64 -> Prop, (forall s x y, fl s x -> fl s y -> x = y) ->
  forall s j j', document fl s j -> document fl s j' -> j = j'.
Proof. exact one_document. Qed.

(** * What is written *)

Lemma byte_cases n : (n < 32)%N -> In n (map N.of_nat (seq 0 32)).
Proof. intros L. apply in_map_iff. exists (N.to_nat n). rewrite N2Nat.id. split; [reflexivity|]. apply in_seq. lia. Qed.
Lemma hex2_denotes n : (n < 256)%N -> hex4 ("00" +++ hex2 n) n.
Proof.
  intros L. split; [reflexivity|]. assert (H : forall d, (d < 16)%N -> hex_digit (digit_char d) d).
  { intros d X. left. apply hex_digits. auto. }
  unfold hex2. pose proof (N.div_mod n 16). pose proof (N.mod_lt n 16).
  replace n with (16 * (16 * (16 * (16 * 0 + 0) + 0) + n / 16) + n mod 16)%N at 3 by lia.
  change ("00" +++ String (digit_char (n / 16)) (String (digit_char (n mod 16)) "")) with
    (((("" +++ String "0" "") +++ String "0" "") +++ String (digit_char (n / 16)) "") +++ String (digit_char (n mod 16)) "").
  constructor; [|apply H; lia]. constructor; [|apply H, N.div_lt_upper_bound; lia].
  constructor; [constructor; [constructor|]|]; left; reflexivity.
Qed.
Lemma bytes_small n c : (n < 128)%N -> n = N_of_ascii c -> bytes (utf8 n) = String c "".
Proof. intros L ->. unfold utf8. rewrite (proj2 (N.ltb_lt _ _) L). unfold bytes. cbn [map string_of_list_ascii]. rewrite ascii_N_embedding. reflexivity. Qed.
Lemma is_chr c n : N_of_ascii c = n -> c = chr n.
Proof. intros <-. unfold chr. symmetry. apply ascii_N_embedding. Qed.
Lemma write_byte_ok c s t : chars s t -> chars (write_byte c +++ s) (String c t).
Proof.
  intros H. unfold write_byte. cbv zeta.
  destruct (N.eqb_spec (N_of_ascii c) 34) as [E|N1]; [apply is_chr in E; subst c; apply c_escape; [cbn; tauto|exact H]|].
  destruct (N.eqb_spec (N_of_ascii c) 92) as [E|N2]; [apply is_chr in E; subst c; apply c_escape; [cbn; tauto|exact H]|].
  destruct (N.eqb_spec (N_of_ascii c) 8) as [E|N3]; [apply is_chr in E; subst c; apply c_escape; [cbn; tauto|exact H]|].
  destruct (N.eqb_spec (N_of_ascii c) 9) as [E|N4]; [apply is_chr in E; subst c; apply c_escape; [cbn; tauto|exact H]|].
  destruct (N.eqb_spec (N_of_ascii c) 10) as [E|N5]; [apply is_chr in E; subst c; apply c_escape; [cbn; tauto|exact H]|].
  destruct (N.eqb_spec (N_of_ascii c) 12) as [E|N6]; [apply is_chr in E; subst c; apply c_escape; [cbn; tauto|exact H]|].
  destruct (N.eqb_spec (N_of_ascii c) 13) as [E|N7]; [apply is_chr in E; subst c; apply c_escape; [cbn; tauto|exact H]|].
  destruct (N.ltb_spec (N_of_ascii c) 32) as [L|L].
  - change (("\u00" +++ hex2 (N_of_ascii c)) +++ s) with ("\u" +++ ("00" +++ hex2 (N_of_ascii c)) +++ s).
    change (String c t) with (String c "" +++ t). rewrite <- (bytes_small (N_of_ascii c) c) by (lia || reflexivity).
    apply c_unicode; [apply hex2_denotes; lia|unfold surrogate; lia|exact H].
  - apply c_plain; [exact L| | |exact H]; intros ->; [apply N1|apply N2]; reflexivity.
Qed.
Lemma write_chars_ok s : chars (write_chars s) s.
Proof. induction s as [|c s IH]; cbn [write_chars]; [constructor|]. apply write_byte_ok, IH. Qed.
Lemma dec_part n : integer_part (dec n).
Proof. destruct (dec_numeral n) as (A & B & C). split; [exact A|]. split; [exists n; exact B|exact C]. Qed.
Lemma dec_z_ok z : integer (dec_z z) z.
Proof.
  unfold dec_z. destruct (Z.ltb_spec z 0) as [L|L].
  - exists (Z.to_N (- z)). right. exists (dec (Z.to_N (- z))). destruct (dec_numeral (Z.to_N (- z))) as (A & B & C).
    splits; [reflexivity|apply dec_part|exact B|lia|lia].
  - exists (Z.to_N z). left. destruct (dec_numeral (Z.to_N z)) as (A & B & C). splits; [apply dec_part|exact B|lia].
Qed.

Section writing.
  Context (fl : string -> f64 -> Prop) (ft : f64 -> string).
  Definition shown (j : json) : Prop := forall x, has_float x j -> float (ft x) /\ fl (ft x) x.
  Lemma shown_in j l : shown (JArr l) -> In j l -> shown j.
  Proof. intros H I x X. apply H. econstructor; eassumption. Qed.
  Lemma shown_at k j l : shown (JObj l) -> In (k, j) l -> shown j.
  Proof. intros H I x X. apply H. eapply hf_obj; eassumption. Qed.
  Lemma spaces n : white (Nat.iter n (fun s => "  " +++ s) "").
  Proof. induction n as [|n IH]; cbn [Nat.iter nat_rect]; [constructor|]. cbn. constructor; [cbn; tauto|]. constructor; [cbn; tauto|exact IH]. Qed.
  Lemma new_line_white n : white (new_line n).
  Proof. unfold new_line. constructor; [cbn; tauto|apply spaces]. Qed.

  (** elements and members with a comma and white space between *)
  Fixpoint joined (sep : string) (l : list string) : string :=
    match l with [] => "" | [x] => x | x :: r => x +++ "," +++ sep +++ joined sep r end.
  Lemma join_joined l : join "," l = joined "" l.
  Proof. induction l as [|x l IH]; [reflexivity|]. destruct l as [|y l]; [reflexivity|]. cbn [join joined] in *. rewrite IH. reflexivity. Qed.
  Lemma lines_joined n l : join_lines n l = joined (new_line (S n)) l.
  Proof. induction l as [|x l IH]; [reflexivity|]. destruct l as [|y l]; [reflexivity|]. cbn [join_lines joined] in *. rewrite IH. reflexivity. Qed.
  Lemma elements_written (w : json -> string) sep b l : white sep -> white b -> l <> [] -> (forall j, In j l -> value fl (w j) j) ->
    forall a, white a -> elements fl (a +++ joined sep (map w l) +++ b) l.
  Proof.
    intros S1 B. induction l as [|j l IH]; intros N0 H a A; [congruence|]. assert (V := H j (or_introl eq_refl)). destruct l as [|k l].
    - exact (e_last fl a _ b _ A V B).
    - cbn [map joined]. rewrite !str_app_assoc.
      exact (e_more fl a _ "" _ _ _ A V w_nil (IH ltac:(discriminate) (fun x I => H x (or_intror I)) sep S1)).
  Qed.
  Lemma members_written (w : json -> string) g sep b l : white g -> white sep -> white b -> l <> [] -> (forall k j, In (k, j) l -> value fl (w j) j) ->
    forall a, white a -> members fl (a +++ joined sep (map (fun e => write_string (fst e) +++ ":" +++ g +++ w (snd e)) l) +++ b) l.
  Proof.
    intros G S1 B. induction l as [|(k, j) l IH]; intros N0 H a A; [congruence|]. assert (V := H k j (or_introl eq_refl)).
    cbn [map]. destruct l as [|e l].
    - cbn [joined map fst snd]. unfold write_string. rewrite !str_app_assoc. exact (m_last fl a _ k "" g _ b j A (write_chars_ok k) w_nil G V B).
    - assert (R := IH ltac:(discriminate) (fun k x I => H k x (or_intror I)) sep S1). cbn [map] in R |- *.
      match type of R with members _ (_ +++ ?t +++ _) _ => remember t as T eqn:ET end. change (joined sep (?x :: ?y :: ?r)) with (x +++ "," +++ sep +++ joined sep (y :: r)). rewrite <- ET. clear ET.
      cbn [fst snd]. unfold write_string. rewrite !str_app_assoc.
      exact (m_more fl a _ k "" g _ "" j _ _ A (write_chars_ok k) w_nil G V w_nil R).
  Qed.
  Lemma arr_shape l w b : l <> [] -> (forall a, white a -> elements fl (a +++ w +++ b) l) -> forall a, white a -> value fl ("[" +++ a +++ w +++ b +++ "]") (JArr l).
  Proof. intros _ H a A. replace ("[" +++ a +++ w +++ b +++ "]") with ("[" +++ (a +++ w +++ b) +++ "]") by (rewrite !str_app_assoc; reflexivity). constructor. auto. Qed.
  Lemma obj_shape l w b : l <> [] -> (forall a, white a -> members fl (a +++ w +++ b) l) -> forall a, white a -> value fl ("{" +++ a +++ w +++ b +++ "}") (JObj l).
  Proof. intros _ H a A. replace ("{" +++ a +++ w +++ b +++ "}") with ("{" +++ (a +++ w +++ b) +++ "}") by (rewrite !str_app_assoc; reflexivity). constructor. auto. Qed.

  Lemma write_value j : shown j -> value fl (write_json ft j) j.
  Proof.
    induction j as [|b|z|x|s|l IH|l IH] using json_ind'; intros F; cbn [write_json].
    - constructor.
    - destruct b; constructor.
    - constructor. apply dec_z_ok.
    - destruct (F x (hf_float x)). constructor; assumption.
    - unfold write_string. constructor. apply write_chars_ok.
    - destruct l as [|j l]; [exact (v_no_elements fl "" w_nil)|]. rewrite join_joined.
      apply (arr_shape (j :: l) _ "" ltac:(discriminate)) with (a := ""); [|constructor].
      apply elements_written; [constructor|constructor|discriminate|]. intros x I. rewrite Forall_forall in IH. apply IH; [exact I|]. eapply shown_in; eassumption.
    - destruct l as [|j l]; [exact (v_no_members fl "" w_nil)|]. rewrite join_joined.
      apply (obj_shape (j :: l) _ "" ltac:(discriminate)) with (a := ""); [|constructor].
      apply (members_written (write_json ft) ""); [constructor|constructor|constructor|discriminate|]. intros k x I. rewrite Forall_forall in IH.
      apply (IH (k, x)); [exact I|]. eapply shown_at; eassumption.
  Qed.
  Lemma pretty_value j : forall n, shown j -> value fl (write_pretty ft n j) j.
  Proof.
    induction j as [|b|z|x|s|l IH|l IH] using json_ind'; intros n F; try (apply write_value, F).
    - destruct l as [|j l]; [apply write_value, F|]. rewrite Forall_forall in IH. remember (j :: l) as l' eqn:E.
      assert (W : write_pretty ft n (JArr l') = "[" +++ new_line (S n) +++ join_lines n (map (write_pretty ft (S n)) l') +++ new_line n +++ "]") by (subst; reflexivity).
      rewrite W, lines_joined. apply (arr_shape l' _ (new_line n)); [subst; discriminate| |apply new_line_white].
      apply elements_written; [apply new_line_white|apply new_line_white|subst; discriminate|]. intros x I. apply IH; [exact I|]. eapply shown_in; eassumption.
    - destruct l as [|j l]; [apply write_value, F|]. rewrite Forall_forall in IH. remember (j :: l) as l' eqn:E.
      assert (W : write_pretty ft n (JObj l') = "{" +++ new_line (S n) +++
        join_lines n (map (fun e => write_string (fst e) +++ ": " +++ write_pretty ft (S n) (snd e)) l') +++ new_line n +++ "}") by (subst; reflexivity).
      rewrite W, lines_joined. apply (obj_shape l' _ (new_line n)); [subst; discriminate| |apply new_line_white].
      apply (members_written (write_pretty ft (S n)) " "); [constructor; [cbn; tauto|constructor]|apply new_line_white|apply new_line_white|subst; discriminate|].
      intros k x I. apply (IH (k, x)); [exact I|]. eapply shown_at; eassumption.
  Qed.
End writing.

(** What is written of a tree, on one line or on several, is a JSON text that stands for that tree and no other, whatever texts
    it holds, if its floats are printed as numbers that stand for them *)
Theorem C192_text : forall (fl : string -> f64 -> Prop) (ft : f64 -> string) j,
  (forall s x y, fl s x -> fl s y -> x = y) ->
  (forall x, has_float x j -> float (ft x) /\ fl (ft x) x) ->
  (forall j', document fl (write_json ft j) j' <-> j' = j) /\ (forall j', document fl (write_pretty ft 0 j) j' <-> j' = j).
Proof.
  intros fl ft j FL F.
  assert (A : document fl (write_json ft j) j).
  { exists "", (write_json ft j), "". rewrite str_app_nil_r. repeat apply conj; [reflexivity|exact w_nil|exact (write_value fl ft j F)|exact w_nil]. }
  assert (B : document fl (write_pretty ft 0 j) j).
  { exists "", (write_pretty ft 0 j), "". rewrite str_app_nil_r. repeat apply conj; [reflexivity|exact w_nil|exact (pretty_value fl ft j 0 F)|exact w_nil]. }
  split; intros j'; (split; [|intros ->; assumption]); intros D; eapply C192_unambiguous; eassumption.
Qed.

(** and without a line break if it is not asked for *)
Lemma line_app a b : one_line (a +++ b) <-> one_line a /\ one_line b.
Proof. unfold one_line. rewrite <- Forall_app. replace (list_ascii_of_string (a +++ b)) with (list_ascii_of_string a ++ list_ascii_of_string b); [reflexivity|]. induction a as [|c a IH]; cbn; [reflexivity|]. f_equal. exact IH. Qed.
Lemma line_char c : (32 <= N_of_ascii c)%N -> one_line (String c "").
Proof. intros H. repeat constructor. exact H. Qed.
Lemma line_lit s : forallb (fun c => 32 <=? N_of_ascii c)%N (list_ascii_of_string s) = true -> one_line s.
Proof. intros H. unfold one_line. apply Forall_forall. rewrite forallb_forall in H. intros c I. apply N.leb_le, H, I. Qed.
Lemma ten_line s : all_ten s -> one_line s.
Proof.
  unfold one_line. induction 1 as [|c s I H IH]; cbn [list_ascii_of_string]; constructor; [|exact IH]. unfold ten in I. cbn in I.
  repeat destruct I as [<-|I]; try contradiction; vm_compute; discriminate.
Qed.
Lemma dec_line n : one_line (dec n).
Proof. destruct (dec_numeral n) as (_ & B & _). apply ten_line, (digits_ten _ _ B). Qed.
Lemma digit_line d : (d < 16)%N -> (32 <= N_of_ascii (digit_char d))%N.
Proof. intros L. apply upto16 in L. cbn [In] in L. repeat destruct L as [<-|L]; try contradiction; vm_compute; discriminate. Qed.
Lemma byte_line c : one_line (write_byte c).
Proof.
  unfold write_byte. cbv zeta. repeat match goal with |- context [(?a =? ?b)%N] => destruct (a =? b)%N; [apply line_lit; reflexivity|] end. destruct (N.ltb_spec (N_of_ascii c) 32) as [L|L].
  - apply line_app. split; [apply line_lit; reflexivity|]. unfold hex2. pose proof (N.mod_lt (N_of_ascii c) 16).
    repeat constructor; apply digit_line; [apply N.div_lt_upper_bound; lia|lia].
  - apply line_char, L.
Qed.
Lemma string_line s : one_line (write_string s).
Proof.
  unfold write_string. rewrite !line_app. splits; [apply line_lit; reflexivity| |apply line_lit; reflexivity].
  induction s as [|c s IH]; cbn [write_chars]; [constructor|]. apply line_app. split; [apply byte_line|exact IH].
Qed.
Lemma join_line l : Forall one_line l -> one_line (join "," l).
Proof.
  induction 1 as [|x l H F IH]; [constructor|]. destruct l as [|y l]; [exact H|]. change (join "," (x :: y :: l)) with (x +++ "," +++ join "," (y :: l)).
  rewrite !line_app. splits; [exact H|apply line_lit; reflexivity|exact IH].
Qed.
Theorem C192_one_line : forall ft j, (forall x, has_float x j -> one_line (ft x)) -> one_line (write_json ft j).
Proof.
  intros ft. induction j as [|b|z|x|s|l IH|l IH] using json_ind'; intros F; cbn [write_json].
  - apply line_lit; reflexivity.
  - destruct b; apply line_lit; reflexivity.
  - unfold dec_z. destruct (z <? 0)%Z; [|apply dec_line]. change (String "-" ?a) with ("-" +++ a). apply line_app. split; [apply line_lit; reflexivity|apply dec_line].
  - apply F. constructor.
  - apply string_line.
  - rewrite !line_app. splits; [apply line_lit; reflexivity| |apply line_lit; reflexivity]. apply join_line, Forall_map. rewrite Forall_forall in *.
    intros j I. apply IH; [exact I|]. intros x X. apply F. econstructor; eassumption.
  - rewrite !line_app. splits; [apply line_lit; reflexivity| |apply line_lit; reflexivity]. apply join_line, Forall_map. rewrite Forall_forall in *.
    intros (k, j) I. cbn [fst snd]. rewrite !line_app. splits; [apply string_line|apply line_lit; reflexivity|]. apply (IH (k, j)); [exact I|].
    intros x X. apply F. eapply hf_obj; eassumption.
Qed.

(** * The floats of what is written *)

Inductive fin (P : f64 -> Prop) : json -> Prop :=
| fin_null : fin P JNull | fin_bool b : fin P (JBool b) | fin_int z : fin P (JInt z) | fin_float x : P x -> fin P (JFloat x) | fin_str s : fin P (JStr s)
| fin_arr l : Forall (fin P) l -> fin P (JArr l) | fin_obj l : Forall (fun e => fin P (snd e)) l -> fin P (JObj l).
Notation fine := (fin (fun x => is_finite x = true)).
Lemma fin_all (P : f64 -> Prop) j : fin P j -> forall x, has_float x j -> P x.
Proof.
  intros F x H. induction H as [|j l I H IH|k j l I H IH]; inversion F as [| | |y Y| |l' L|l' L]; subst; [assumption| |]; rewrite Forall_forall in L; apply IH; [exact (L _ I)|exact (L _ I)].
Qed.
Lemma all_fin j : (forall x, has_float x j -> is_finite x = true) -> fine j.
Proof.
  induction j as [|b|z|x|s|l IH|l IH] using json_ind'; intros H; try constructor.
  - apply H. constructor.
  - rewrite Forall_forall in *. intros j I. apply IH; [exact I|]. intros x X. apply H. econstructor; eassumption.
  - rewrite Forall_forall in *. intros (k, j) I. apply (IH (k, j)); [exact I|]. intros x X. apply H. eapply hf_obj; eassumption.
Qed.
Lemma fin_option (P : f64 -> Prop) {A} (w : A -> json) o : (forall a, fin P (w a)) -> fin P (json_of_option w o).
Proof. destruct o; cbn; [auto|constructor]. Qed.
Lemma fin_list (P : f64 -> Prop) {A} (w : A -> json) l : (forall a, fin P (w a)) -> fin P (json_of_list w l).
Proof. intros H. constructor. apply Forall_map, Forall_forall. auto. Qed.
Lemma fin_arr_map (P : f64 -> Prop) {A} (w : A -> json) l : (forall a, fin P (w a)) -> fin P (JArr (map w l)).
Proof. intros H. constructor. apply Forall_map, Forall_forall. auto. Qed.
Lemma fin_map (P : f64 -> Prop) {A} (w : A -> json) m : (forall a, fin P (w a)) -> fin P (json_of_map w m).
Proof. intros H. constructor. apply Forall_map, Forall_forall. cbn. auto. Qed.
Lemma fin_tagged (P : f64 -> Prop) tag j : fin P j -> fin P (tagged tag j).
Proof. intros H. constructor. repeat constructor. exact H. Qed.
Lemma fin_f64 f : fine (json_of_f64 f).
Proof. unfold json_of_f64. destruct (is_finite f) eqn:E; constructor; exact E. Qed.

Create HintDb fin_db.
Ltac finite :=
  repeat (cbn [fst snd]; first
    [ assumption
    | match goal with |- forall _, _ => intro end
    | solve [auto with fin_db nocore]
    | apply fin_f64 | apply fin_tagged | apply fin_option | apply fin_list | apply fin_map | apply fin_arr_map
    | match goal with |- Forall _ [] => constructor | |- Forall _ (_ :: _) => constructor
        | |- Forall _ (_ ++ _) => apply Forall_app; split
        | |- fin _ (JObj _) => constructor | |- fin _ (JArr _) => constructor | |- fin _ (JStr _) => constructor
        | |- fin _ (JInt _) => constructor | |- fin _ (JBool _) => constructor | |- fin _ JNull => constructor end ]).

Lemma fin_ip (P : f64 -> Prop) a : fin P (json_of_ip a). Proof. unfold json_of_ip. finite. Qed.
Lemma fin_n (P : f64 -> Prop) a : fin P (json_of_n a). Proof. unfold json_of_n. finite. Qed.
Lemma fin_strings (P : f64 -> Prop) a : fin P (json_of_strings a). Proof. unfold json_of_strings. finite. Qed.
Lemma fin_params (P : f64 -> Prop) a : fin P (json_of_params a). Proof. unfold json_of_params. finite. Qed.
Lemma fin_role (P : f64 -> Prop) a : fin P (json_of_role a). Proof. unfold json_of_role. finite. Qed.
Lemma fin_level (P : f64 -> Prop) a : fin P (json_of_level a). Proof. unfold json_of_level. finite. Qed.
Lemma fin_severity (P : f64 -> Prop) a : fin P (json_of_severity a). Proof. unfold json_of_severity. finite. Qed.
Lemma fin_tactic (P : f64 -> Prop) a : fin P (json_of_tactic a). Proof. unfold json_of_tactic. finite. Qed.
Lemma fin_technique (P : f64 -> Prop) a : fin P (json_of_technique a). Proof. unfold json_of_technique. finite. Qed.
#[export] Hint Resolve fin_ip fin_n fin_strings fin_params fin_role fin_level fin_severity fin_tactic fin_technique : fin_db.
Lemma fin_field f : fine (json_of_field f). Proof. destruct f; unfold json_of_field; finite. Qed.
#[export] Hint Resolve fin_field : fin_db.
Lemma fin_row m : fine (json_of_row m). Proof. unfold json_of_row. finite. Qed.
Lemma fin_log l : fine (json_of_log l). Proof. unfold json_of_log. finite. Qed.
Lemma fin_type (P : f64 -> Prop) t : fin P (json_of_type t). Proof. destruct t; unfold json_of_type; finite. Qed.
Lemma fin_function (P : f64 -> Prop) f : fin P (json_of_function f). Proof. destruct f; unfold json_of_function; finite. Qed.
Lemma fin_task_data (P : f64 -> Prop) d : fin P (json_of_task_data d). Proof. destruct d; unfold json_of_task_data; finite. Qed.
Lemma fin_query (P : f64 -> Prop) q : fin P (json_of_query q). Proof. unfold json_of_query. finite. Qed.
Lemma fin_login (P : f64 -> Prop) u : fin P (json_of_login u). Proof. destruct u; unfold json_of_login; finite. Qed.
Lemma fin_pagination (P : f64 -> Prop) u : fin P (json_of_pagination u). Proof. unfold json_of_pagination. finite. Qed.
#[export] Hint Resolve fin_row fin_log fin_type fin_function fin_task_data fin_query fin_login fin_pagination : fin_db.
Lemma fin_task (P : f64 -> Prop) t : fin P (json_of_task t). Proof. unfold json_of_task. finite. Qed.
Lemma fin_header (P : f64 -> Prop) h : fin P (json_of_header h). Proof. unfold json_of_header. finite. Qed.
Lemma fin_result (P : f64 -> Prop) r : fin P (json_of_result r). Proof. destruct r; unfold json_of_result; finite. Qed.
#[export] Hint Resolve fin_task fin_header fin_result : fin_db.
Lemma fin_call (P : f64 -> Prop) c : fin P (json_of_call c). Proof. destruct c; unfold json_of_call, json_of_commented; finite. Qed.
Lemma fin_task_result (P : f64 -> Prop) r : fin P (json_of_task_result r). Proof. unfold json_of_task_result. finite. Qed.
Lemma fin_command_result (P : f64 -> Prop) {T} (w : T -> json) r : (forall a, fin P (w a)) -> fin P (json_of_command_result w r).
Proof. intros H. destruct r as [a|[s|s|s]]; unfold json_of_command_result, json_of_command_error; finite. Qed.
Lemma fin_rule_definition (P : f64 -> Prop) u : fin P (json_of_rule_definition u). Proof. unfold json_of_rule_definition. finite. Qed.
Lemma fin_requirements (P : f64 -> Prop) u : fin P (json_of_requirements u). Proof. unfold json_of_requirements. finite. Qed.
#[export] Hint Resolve fin_call fin_task_result fin_rule_definition fin_requirements : fin_db.
Lemma fin_use_case (P : f64 -> Prop) u : fin P (json_of_use_case u). Proof. unfold json_of_use_case. finite. Qed.
Lemma fin_dataset_definition (P : f64 -> Prop) d : fin P (json_of_dataset_definition d). Proof. unfold json_of_dataset_definition. finite. Qed.
Lemma fin_command_definition (P : f64 -> Prop) d : fin P (json_of_command_definition d). Proof. unfold json_of_command_definition. finite. Qed.
Lemma fin_named (P : f64 -> Prop) d : fin P (json_of_named d). Proof. unfold json_of_named. finite. Qed.
Lemma fin_logged (P : f64 -> Prop) d : fin P (json_of_logged_on d). Proof. unfold json_of_logged_on. finite. Qed.
Lemma fin_fire (P : f64 -> Prop) d : fin P (json_of_fire_mode d). Proof. destruct d; unfold json_of_fire_mode. all: finite. Qed.
#[export] Hint Resolve fin_use_case fin_dataset_definition fin_command_definition fin_named fin_logged fin_fire : fin_db.
Lemma fin_response r : fine (json_of_response r).
Proof. destruct r; unfold json_of_response; apply fin_tagged; finite; try (apply fin_command_result; finite). Qed.
Lemma fin_task_definition (P : f64 -> Prop) d : fin P (json_of_task_definition d). Proof. unfold json_of_task_definition. finite. Qed.
Lemma fin_aggregation (P : f64 -> Prop) a : fin P (json_of_aggregation a). Proof. unfold json_of_aggregation. finite. Qed.
#[export] Hint Resolve fin_response fin_task_definition fin_aggregation : fin_db.
Lemma fin_alert a : fine (json_of_alert a). Proof. unfold json_of_alert. finite. Qed.
Lemma fin_notification (P : f64 -> Prop) n : fin P (json_of_notification n). Proof. unfold json_of_notification. finite. Qed.
#[export] Hint Resolve fin_alert fin_notification : fin_db.
Lemma fin_message m j : json_of_message m = Some j -> fine j.
Proof. destruct m; cbn [json_of_message]; try discriminate; intros [= <-]; finite. Qed.
Lemma fin_dictionary (P : f64 -> Prop) d : fin P (json_of_dictionary d). Proof. unfold json_of_dictionary. finite. Qed.
Lemma fin_parsing_error e : fine (json_of_parsing_error e). Proof. destruct e; unfold json_of_parsing_error; finite. Qed.
Lemma fin_geo t g : (forall x, is_finite x = true -> is_finite (t x) = true) -> fine (json_of_geo_info t g).
Proof.
  intros H. assert (F : forall x, fine (json_of_f32 t x)) by (intros x; unfold json_of_f32; destruct (is_finite x) eqn:E; constructor; auto).
  unfold json_of_geo_info. finite; apply F.
Qed.
Lemma fin_labels (P : f64 -> Prop) l : fin P (json_of_labels l). Proof. unfold json_of_labels. finite. Qed.
#[export] Hint Resolve fin_labels : fin_db.
Lemma fin_metric d : fine (json_of_metric_def d).
Proof.
  unfold json_of_metric_def. finite. destruct (d_metric d); unfold json_of_metric; finite;
    unfold json_of_counter_vec, json_of_gauge_vec, json_of_hist_vec; finite; unfold json_of_counter, json_of_gauge, json_of_hist, json_of_bucket; finite.
Qed.
Lemma fin_state (P : f64 -> Prop) s : fin P (json_of_state s). Proof. unfold json_of_state. finite. destruct (states s); finite. Qed.
#[export] Hint Resolve fin_state : fin_db.
Lemma fin_op o : fine (snd (op_entry o)).
Proof.
  assert (L : forall l, Forall (fun o => fine (snd (op_entry o))) l -> fine (JArr (map (fun o => JObj [op_entry o]) l))).
  { intros l H. constructor. rewrite Forall_map. eapply Forall_impl; [|exact H]. intros o1 F. constructor. constructor; [exact F|constructor]. }
  induction o using op_induction; cbn [op_entry snd]; [apply L; assumption|apply L; assumption|finite|finite|].
  destruct o; try (exfalso; match goal with H : forall x, _ <> _ |- _ => eapply H; reflexivity end); cbn [op_entry snd]; finite.
Qed.
#[export] Hint Resolve fin_op : fin_db.
Lemma fin_rule r : fine (json_of_rule r).
Proof.
  unfold json_of_rule. finite.
  - unfold json_of_mitre. finite.
  - unfold json_of_subrule. finite; [unfold json_of_cond; finite|]. destruct (sr_state a); finite.
  - unfold json_of_alert_gen. finite; [destruct a; unfold json_of_content; finite|]. destruct (al_aggregation (ru_alert r)); finite.
Qed.
Lemma fin_value v : fine (json_of_value v).
Proof. induction v as [s|z|x|l IH|] using value_induction; cbn [json_of_value]; [finite|finite|finite|constructor; apply Forall_map; exact IH|finite]. Qed.
#[export] Hint Resolve fin_value : fin_db.
Lemma fin_sigma r : fine (json_of_sigma r).
Proof.
  assert (T : forall k (A : Type) (w : A -> json) (o : option A), (forall a, fine (w a)) -> Forall (fun e => fine (snd e)) (skip_none k w o)).
  { intros k A w o H. unfold skip_none. destruct o; finite; apply H. }
  unfold json_of_sigma. finite; try (apply T; finite).
  - unfold json_of_logsource. finite; apply T; finite.
  - unfold json_of_detection. finite. apply Forall_map, Forall_forall. intros (k, c) _. cbn [snd]. destruct c; unfold json_of_condition; finite.
Qed.
Lemma fin_net p j : json_of_net_protocol p = Some j -> fine j. Proof. destruct p; intros [= <-]; finite. Qed.
Lemma fin_event io e j : json_of_event io e = Some j -> (forall v, e = EvJson v -> fine v) -> fine j.
Proof.
  destruct e as [e|v]; cbn [json_of_event].
  - intros H _. destruct e; unfold tagged_event in H.
    + unfold fw_entries in H. destruct (json_of_net_protocol _) eqn:E in H; [|discriminate]. injection H as <-.
      apply fin_net in E. finite.
    + unfold intrusion_entries in H. destruct (json_of_net_protocol _) eqn:E in H; [|discriminate]. injection H as <-.
      apply fin_net in E. unfold json_of_intrusion_category. finite.
    + injection H as <-. unfold webproxy_entries. finite; [destruct (wp_http_method e)|destruct (wp_protocol e)|destruct a]; cbn; finite.
    + injection H as <-. unfold webserver_entries. finite; [destruct (ws_http_method e)|destruct (ws_protocol e)]; cbn; finite.
    + injection H as <-. unfold dns_entries. finite.
    + injection H as <-. unfold dhcp_entries. finite.
    + injection H as <-. unfold auth_entries. finite. destruct (au_login_type e); unfold json_of_login_type; finite.
    + injection H as <-. finite.
  - intros H V. specialize (V v eq_refl). destruct v; try discriminate; injection H as <-; unfold tagged_event.
    + finite.
    + inversion V; subst. constructor. constructor; [constructor|assumption].
Qed.

(** No float that is not finite is written in a document, so all of theirs can be printed as numbers *)
Theorem C192_documents :
  (forall m j x, json_of_message m = Some j -> has_float x j -> is_finite x = true) /\
  (forall d x, has_float x (json_of_task_definition d) -> is_finite x = true) /\ (forall d x, has_float x (json_of_command_definition d) -> is_finite x = true) /\
  (forall d x, has_float x (json_of_dataset_definition d) -> is_finite x = true) /\ (forall u x, has_float x (json_of_use_case u) -> is_finite x = true) /\
  (forall d x, has_float x (json_of_metric_def d) -> is_finite x = true) /\ (forall e x, has_float x (json_of_parsing_error e) -> is_finite x = true) /\
  (forall d x, has_float x (json_of_dictionary d) -> is_finite x = true) /\ (forall r x, has_float x (json_of_rule r) -> is_finite x = true) /\
  (forall r x, has_float x (json_of_sigma r) -> is_finite x = true) /\
  (forall t g x, (forall y, is_finite y = true -> is_finite (t y) = true) -> has_float x (json_of_geo_info t g) -> is_finite x = true) /\
  (forall io e j x, (forall v y, e = EvJson v -> has_float y v -> is_finite y = true) -> json_of_event io e = Some j -> has_float x j -> is_finite x = true).
Proof.
  splits.
  - intros m j x E H. exact (fin_all (fun y => is_finite y = true) _ (fin_message _ _ E) _ H).
  - intros d x. exact (fin_all (fun y => is_finite y = true) _ (fin_task_definition _ d) x).
  - intros d x. exact (fin_all (fun y => is_finite y = true) _ (fin_command_definition _ d) x).
  - intros d x. exact (fin_all (fun y => is_finite y = true) _ (fin_dataset_definition _ d) x).
  - intros d x. exact (fin_all (fun y => is_finite y = true) _ (fin_use_case _ d) x).
  - intros d x. exact (fin_all (fun y => is_finite y = true) _ (fin_metric d) x).
  - intros d x. exact (fin_all (fun y => is_finite y = true) _ (fin_parsing_error d) x).
  - intros d x. exact (fin_all (fun y => is_finite y = true) _ (fin_dictionary _ d) x).
  - intros d x. exact (fin_all (fun y => is_finite y = true) _ (fin_rule d) x).
  - intros d x. exact (fin_all (fun y => is_finite y = true) _ (fin_sigma d) x).
  - intros t g x T. exact (fin_all (fun y => is_finite y = true) _ (fin_geo t g T) x).
  - intros io e j x V E H. refine (fin_all (fun y => is_finite y = true) _ (fin_event _ _ _ E _) _ H). intros v ->. apply all_fin. intros y Y. exact (V v y eq_refl Y).
Qed.

(** So a command that is written and read again as text is the same command, and a task the same task: they hold no floats *)
Theorem C192_commands : forall (fl : string -> f64 -> Prop) (ft : f64 -> string) j, (forall s x y, fl s x -> fl s y -> x = y) ->
  (forall c, call_ok c -> ~ carries_ip c -> document fl (write_json ft (json_of_call c)) j -> from_text call_of_json j = Some c) /\
  (forall t, task_ok t -> document fl (write_json ft (json_of_task t)) j -> from_text task_of_json j = Some t) /\
  (forall h, header_ok h -> document fl (write_json ft (json_of_header h)) j -> from_text header_of_json j = Some h).
Proof.
  intros fl ft j FL. assert (K : forall t, fin (fun _ => False) t -> document fl (write_json ft t) j -> j = t).
  { intros t F D. assert (X : forall x, has_float x t -> float (ft x) /\ fl (ft x) x) by (intros x X; destruct (fin_all _ _ F x X)).
    exact (proj1 (proj1 (C192_text fl ft t FL X) j) D). }
  destruct (C187_read {| reread := Some; big_int := fun _ => None |}) as (_ & RC & _ & RT & _).
  splits.
  - intros c O I D. apply K in D; [|apply fin_call]. subst j. rewrite RC. apply C88_roundtrip; assumption.
  - intros t O D. apply K in D; [|apply fin_task]. subst j. rewrite RT. apply C88_tasks; assumption.
  - intros h O D. apply K in D; [|apply fin_header]. subst j. rewrite (by_nesting _ _ _ (d_header h)) by lia. apply C88_headers; assumption.
Qed.

(** * Cases *)

(** a text with a quote, a backslash, a line break and a bell; a document with all kinds of values, in both layouts *)
Definition half : f64 := S754_finite false 4503599627370496 (-53).
Definition a_tree : json :=
  JObj [("t", JStr (String "034" (String "\" (String "010" (String "007" "x"))))); ("l", JArr [JNull; JBool true; JInt (-3); JFloat half]); ("e", JArr []); ("o", JObj [])]%string.
Definition q (s : string) : string := (String "034" (s +++ String "034" ""))%string.
Example C192_case : let ft := fun _ : f64 => "0.5"%string in let fl := fun s x => s = "0.5"%string /\ x = half in
  (forall s x y, fl s x -> fl s y -> x = y) /\ (forall x, has_float x a_tree -> float (ft x) /\ fl (ft x) x) /\
  write_json ft a_tree = ("{" +++ q "t" +++ ":" +++ q (String "\" (String "034" "\\\n\u0007x")) +++ "," +++ q "l" +++ ":[null,true,-3,0.5]," +++ q "e" +++ ":[]," +++ q "o" +++ ":{}}")%string /\
  write_pretty ft 0 (JArr [JObj [("k"%string, JInt 1)]; JArr []]) =
    ("[" +++ String "010" ("  {" +++ String "010" ("    " +++ q "k" +++ ": 1" +++ String "010" ("  }," +++ String "010" ("  []" +++ String "010" "]")))))%string.
Proof.
  cbv zeta. splits; [intros s x y (_ & ->) (_ & ->); reflexivity| |vm_compute; reflexivity|vm_compute; reflexivity].
  intros x X. assert (E : x = half).
  { assert (F : fin (fun y => y = half) a_tree) by (unfold a_tree; finite; constructor; reflexivity). exact (fin_all _ _ F x X). }
  subst x. split; [|split; reflexivity]. exists ""%string, "0"%string, ".5"%string, ""%string. splits; [reflexivity|left; reflexivity| | |left; reflexivity|left; discriminate].
  - split; [discriminate|]. split; [exists 0%N; exact (denotes_snoc decimal_digit 10 "" 0 "0" 0 (denotes_nil _ _) eq_refl)|]. intros r [= <-]. reflexivity.
  - right. exists "5"%string. splits; [reflexivity|discriminate|]. exists 5%N. exact (denotes_snoc decimal_digit 10 "" 0 "5" 5 (denotes_nil _ _) eq_refl).
Qed.
(** white space and escapes are read, a leading zero and a lone surrogate are not *)
Example C192_grammar : let fl := fun (_ : string) (_ : f64) => False in
  document fl " [ 1 ,true]" (JArr [JInt 1; JBool true]) /\ chars "\u00e9\/" (String "195" (String "169" "/"))
  /\ (forall z, ~ integer "01" z) /\ (forall t, ~ chars "\ud800" t).
Proof.
  cbv zeta. splits.
  - exists " "%string, "[ 1 ,true]"%string, ""%string. splits; [reflexivity|constructor; [cbn; tauto|constructor]| |constructor].
    refine (v_array _ " 1 ,true" _ _). refine (e_more _ " " "1" " " (JInt 1) "true" [JBool true] _ _ _ _); try (constructor; [cbn; tauto|constructor]).
    + constructor. exact (dec_z_ok 1).
    + refine (e_last _ "" "true" "" (JBool true) w_nil _ w_nil). constructor.
  - refine (c_unicode "00e9" 233 "\/" "/" _ _ _); [|unfold surrogate; lia|exact (c_escape "/" "/" "" "" ltac:(cbn; tauto) c_nil)].
    change "00e9"%string with ("00" +++ hex2 233)%string. apply hex2_denotes. reflexivity.
  - intros z (n & [((_ & _ & Z) & _)|(r & E & _)]); [|discriminate]. specialize (Z _ eq_refl). discriminate.
  - intros t H. inversion H as [|c s u L Q B G|e c s u I G|h n s u X NS G|h n l m s u X R Y R' G]; subst.
    + congruence.
    + cbn in I. repeat destruct I as [I|I]; try discriminate; contradiction.
    + destruct X as (L & X). assert (n = 55296%N); [|subst; apply NS; unfold surrogate; lia].
      assert (h = "d800"%string) by (destruct h as [|h1 [|h2 [|h3 [|h4 [|]]]]]; try discriminate L; cbn in H0; congruence). subst h.
      apply (denotes_same _ _ _ _ _ hex_same X).
      refine (denotes_snoc hex_digit 16 "d80" 3456 "0" 0 (denotes_snoc hex_digit 16 "d8" 216 "0" 0 (denotes_snoc hex_digit 16 "d" 13 "8" 8 (denotes_snoc hex_digit 16 "" 0 "d" 13 (denotes_nil _ _) _) _) _) _); left; reflexivity.
    + apply (f_equal String.length) in H0. destruct X as (L & _), Y as (M & _). cbn in H0. rewrite !SigmaP.slen_app in H0. cbn in H0. rewrite ?SigmaP.slen_app in H0. lia.
Qed.

Print Assumptions C192_unambiguous.
Print Assumptions C192_text.
Print Assumptions C192_one_line.
Print Assumptions C192_documents.
Print Assumptions C192_commands.
