(** The MITRE tables. *)
From Coq Require Import String Ascii List Bool.
From Verif Require Import Base.Str Base.Outcome Model.Mitre Spec.SigmaSpec.
Import ListNotations.
Local Open Scope string_scope.

Definition spellsb (name s : string) : bool := String.eqb s (mitre_id name) || String.eqb s (to_lower (mitre_id name)).
Lemma spellsb_iff name s : spellsb name s = true <-> spells name s.
Proof. unfold spellsb, spells. rewrite orb_true_iff, !String.eqb_eq. tauto. Qed.

Lemma technique_arms_sound :
  forallb (fun a => spellsb (technique_name (snd a)) (fst a)) technique_arms = true.
Proof. vm_compute. reflexivity. Qed.
Lemma technique_found1 t : technique_try_from (mitre_id (technique_name t)) = Ok t.
Proof. destruct t; vm_compute; reflexivity. Qed.
Lemma technique_found2 t : technique_try_from (to_lower (mitre_id (technique_name t))) = Ok t.
Proof. destruct t; vm_compute; reflexivity. Qed.

Lemma technique_ok s t : technique_try_from s = Ok t <-> spells (technique_name t) s.
Proof.
  split.
  - unfold technique_try_from. destruct (find _ _) as [[k v]|] eqn:E; [|discriminate].
    intros H. simpl in H. assert (v = t) as -> by congruence. apply find_some in E as [I K]. simpl in K. apply String.eqb_eq in K as ->.
    apply spellsb_iff. pose proof technique_arms_sound as F. rewrite forallb_forall in F. exact (F _ I).
  - intros [-> | ->]; [apply technique_found1|apply technique_found2].
Qed.

Lemma tactic_ok s t : tactic_try_from s = Ok t <-> spells (tactic_name t) s \/ (s = "command_and_control" /\ t = TA0011).
Proof.
  split.
  - unfold tactic_try_from. destruct (find _ _) as [[k v]|] eqn:E; [|discriminate].
    intros H. simpl in H. assert (v = t) as -> by congruence. apply find_some in E as [I K]. simpl in K. apply String.eqb_eq in K as ->.
    assert (forallb (fun a => spellsb (tactic_name (snd a)) (fst a)
        || (String.eqb (fst a) "command_and_control" && String.eqb (tactic_name (snd a)) "TA0011")) tactic_arms = true) as F
      by (vm_compute; reflexivity).
    rewrite forallb_forall in F. specialize (F _ I). simpl in F. apply orb_true_iff in F as [F|F].
    + left. apply spellsb_iff. exact F.
    + right. apply andb_true_iff in F as [F1 F2]. apply String.eqb_eq in F1. split; [exact F1|].
      destruct t; vm_compute in F2; try discriminate F2; reflexivity.
  - intros [[-> | ->]|[-> ->]]; [destruct t; vm_compute; reflexivity|destruct t; vm_compute; reflexivity|vm_compute; reflexivity].
Qed.

