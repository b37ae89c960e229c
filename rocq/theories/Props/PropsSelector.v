(** Property C09: the rule selector (src/utilities/rule_selector.rs). *)
From Coq Require Import String Ascii List NArith.
From Verif Require Import Base.Str Model.RuleSelector Spec.SelectorSpec Proofs.SelectorP.
Import ListNotations.
Local Open Scope string_scope.
Local Open Scope N_scope.

(** Every text is cut into words in exactly one way. *)
Theorem C09_words_exist_unique : forall s, exists ws, cuts s ws /\ forall ws', cuts s ws' -> ws' = ws.
Proof. exact (fun s => ex_intro _ _ (conj (split_cuts s) (fun ws' H => cuts_functional s ws' _ H (split_cuts s)))). Qed.
Print Assumptions C09_words_exist_unique.

(** For every history [h] of additions, starting from the empty selector, and every query. *)
Theorem C09_search_returns_best : forall h text ws, cuts text ws ->
  let s := fold_left (fun s p => sel_add (fst p) (snd p) s) h sel_new in
  (forall r, sel_search text s = Some r <-> best h ws r) /\
  (sel_search text s = None <-> forall r w, In w ws -> ~ described h r w).
Proof. exact search_spec. Qed.
Print Assumptions C09_search_returns_best.

Example C09_nonvacuous :
  let s := fold_left (fun s p => sel_add (fst p) (snd p) s)
     [("sqli", "SQL injection attempt"); ("xss", "Cross site scripting attempt"); ("aaa", "attempt")] sel_new in
  cuts "SQL attempt" ["SQL"; "attempt"] /\ sel_search "SQL attempt" s = Some "sqli" /\
  sel_search "attempt" s = Some "aaa" /\ sel_search "nothing" s = None.
Proof.
  cbv zeta. split; [apply (split_cuts "SQL attempt")|vm_compute; auto].
Qed.
