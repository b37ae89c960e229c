(** What a Sigma rule whose search identifiers are all required asks of a log. *)
From Coq Require Import String Ascii List Bool.
From Verif Require Import Base.Str Base.BTree Model.Field Model.Log Model.Rule Model.Sigma Spec.RuleSpec Spec.SigmaSpec.
Import ListNotations.
Local Open Scope string_scope.

(** One entry of a map: the field, how its value is to be compared, and the value. A null asks for the absence of the field. *)
Definition entry_holds (P : printers) (l : log) (e : string * sigma_value) : Prop :=
  exists name h all, fst e = key name h all /\ str_has "|" name = false /\
    (snd e = SNone /\ log_field name l = None \/
     snd e <> SNone /\ exists f, log_field name l = Some f /\ sigma_means P h all (snd e) (display P f)).
(** Entries whose translation keeps their meaning (C47): nulls without modifiers; values without wildcards, with modifiers
    that suit them; no empty lists *)
Definition plain_entry (e : string * sigma_value) : Prop :=
  exists name h all, fst e = key name h all /\ str_has "|" name = false /\
    (snd e = SNone /\ h = Whole /\ all = false \/ literal_value (snd e) /\ supported h all (snd e) /\ snd e <> SArray []).
(** The meaning of the test of a condition on the value of a field, through its text *)
Definition text_test (P : printers) (o : rule_op) (f : field) : Prop := op_text P o (display P f).
(** All entries of all search identifiers *)
Definition sigma_asks (P : printers) (sg : sigma_rule) (l : log) : Prop :=
  forall id m e, In (id, SMap m) (search_identifiers (sg_detection sg)) -> In e m -> entry_holds P l e.
