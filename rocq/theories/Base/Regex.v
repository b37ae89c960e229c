(** Regular expressions over bytes, with the usual matching relation and a derivative based matcher:
    the part of the [regex] crate that anchored patterns without captures need. *)
From Coq Require Import Ascii String List Bool.
Import ListNotations.
Local Open Scope string_scope.

Inductive re :=
| RNone | REps
| RSet (f : ascii -> bool)
| RCat (a b : re) | RAlt (a b : re) | RStar (a : re).
(** [x+] *)
Definition RPlus (a : re) : re := RCat a (RStar a).

(** The language of an expression. *)
Inductive matches_re : re -> string -> Prop :=
| m_eps : matches_re REps ""
| m_set (f : ascii -> bool) c : f c = true -> matches_re (RSet f) (String c "")
| m_cat a b s t : matches_re a s -> matches_re b t -> matches_re (RCat a b) (s ++ t)
| m_altl a b s : matches_re a s -> matches_re (RAlt a b) s
| m_altr a b s : matches_re b s -> matches_re (RAlt a b) s
| m_star0 a : matches_re (RStar a) ""
| m_star a s t : matches_re a s -> matches_re (RStar a) t -> matches_re (RStar a) (s ++ t).

Fixpoint nullable (r : re) : bool :=
  match r with
  | RNone => false | REps => true | RSet _ => false
  | RCat a b => nullable a && nullable b | RAlt a b => nullable a || nullable b | RStar _ => true
  end.
Fixpoint deriv (c : ascii) (r : re) : re :=
  match r with
  | RNone | REps => RNone
  | RSet f => if f c then REps else RNone
  | RCat a b => if nullable a then RAlt (RCat (deriv c a) b) (deriv c b) else RCat (deriv c a) b
  | RAlt a b => RAlt (deriv c a) (deriv c b)
  | RStar a => RCat (deriv c a) (RStar a)
  end.
(** [Regex::is_match] for a pattern anchored at both ends *)
Fixpoint re_full (r : re) (s : string) : bool :=
  match s with EmptyString => nullable r | String c t => re_full (deriv c r) t end.

Lemma nullable_iff r : nullable r = true <-> matches_re r "".
Proof.
  split.
  - induction r; simpl; intros H; try discriminate; try (constructor; fail).
    + apply andb_prop in H. destruct H. apply (m_cat r1 r2 "" ""); auto.
    + apply orb_prop in H. destruct H; [apply m_altl|apply m_altr]; auto.
  - remember "" as s eqn:E. induction 1; simpl; try discriminate; auto.
    + destruct s; [|discriminate]. simpl in E. subst. rewrite IHmatches_re1, IHmatches_re2; auto.
    + rewrite IHmatches_re; auto.
    + rewrite IHmatches_re; auto using orb_true_r.
Qed.

Lemma deriv_iff c r s : matches_re (deriv c r) s <-> matches_re r (String c s).
Proof.
  split.
  - revert s. induction r; simpl; intros s H; try (inversion H; fail).
    + destruct (f c) eqn:F; inversion H; subst. constructor. exact F.
    + assert (K : forall s, matches_re (RCat (deriv c r1) r2) s -> matches_re (RCat r1 r2) (String c s)).
      { intros u K. inversion K; subst. apply (m_cat r1 r2 (String c s0) t); auto. }
      destruct (nullable r1) eqn:N; [|apply K; exact H].
      inversion H; subst; [apply K; assumption|]. apply nullable_iff in N. apply (m_cat r1 r2 "" (String c s)); auto.
    + inversion H; subst; [apply m_altl|apply m_altr]; auto.
    + inversion H; subst. apply (m_star r (String c s0) t); auto.
  - intros H. remember (String c s) as w eqn:E. revert s E. induction H; intros u E; simpl; try discriminate.
    + injection E as -> <-. rewrite H. constructor.
    + destruct s as [|d s]; simpl in E.
      * assert (N : nullable a = true) by (apply nullable_iff; assumption). rewrite N. apply m_altr. apply IHmatches_re2. exact E.
      * injection E as -> <-. destruct (nullable a); [apply m_altl|]; apply m_cat; auto.
    + apply m_altl; auto.
    + apply m_altr; auto.
    + destruct s as [|d s]; simpl in E; [auto|]. injection E as -> <-. apply m_cat; auto.
Qed.

Theorem re_full_iff r s : re_full r s = true <-> matches_re r s.
Proof.
  revert r. induction s as [|c s IH]; intros r; simpl; [apply nullable_iff|]. rewrite IH. apply deriv_iff.
Qed.
