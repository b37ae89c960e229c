(** Model of src/components/rule/sigma.rs *)
From Coq Require Import String Ascii NArith ZArith List Bool.
From Verif Require Import Base.Ord Base.BTree Base.Str Base.Outcome Model.Field Model.DatasetTypes Model.Mitre Model.Rule.
Import ListNotations.
Local Open Scope string_scope.

(** sigma.rs:267-276 *)
Inductive sigma_value :=
| SText (s : string)
| SInt (z : Z)
| SFloat (f : f64)
| SArray (l : list sigma_value)
| SNone.

(** sigma.rs:105-112 *)
Inductive sigma_condition :=
| SMap (m : bt string sigma_value)
| SList (l : list (bt string sigma_value))
| SNoCondition.

(** sigma.rs:98-103 *)
Record sigma_detection := mkDetection { search_identifiers : bt string sigma_condition; sd_condition : string }.

(** sigma.rs:255-265 *)
Record sigma_logsource := mkSource {
  ls_category : option string; ls_product : option string; ls_service : option string; ls_definition : option string }.

(** sigma.rs:15-96 *)
Record sigma_rule := mkSigma {
  sg_title : string; sg_id : option string; sg_description : option string; sg_references : option (list string);
  sg_status : option string; sg_license : option string; sg_author : option string; sg_date : option string;
  sg_logsource : sigma_logsource; sg_detection : sigma_detection;
  sg_fields : option (list string); sg_falsepositives : option (list string);
  sg_level : option string; sg_tags : option (list string) }.

(** ** Byte offsets into UTF-8 text *)
(** The byte at an offset *)
Fixpoint byte_at (n : nat) (s : string) : option ascii :=
  match s, n with
  | EmptyString, _ => None
  | String c _, O => Some c
  | String _ r, S n => byte_at n r
  end.
(** A UTF-8 continuation byte: 10xxxxxx *)
Definition is_cont (c : ascii) : bool :=
  let n := N_of_ascii c in (128 <=? n)%N && (n <? 192)%N.
(** [str::is_char_boundary] *)
Definition is_boundary (n : nat) (s : string) : bool :=
  Nat.eqb n 0 || Nat.eqb n (String.length s)
  || match byte_at n s with Some c => negb (is_cont c) | None => false end.
(** [&s[a..b]]: panics unless [a <= b] and both are character boundaries *)
Definition slice (a b : nat) (s : string) : outcome string :=
  if Nat.leb a b && is_boundary a s && is_boundary b s then Val (String.substring a (b - a) s) else Panic.
(** [&s[a..]] *)
Definition slice_from (a : nat) (s : string) : outcome string := slice a (String.length s) s.

(** [s.ends_with(p)] *)
Fixpoint ends_with (p s : string) : bool :=
  String.eqb p s || match s with EmptyString => false | String _ r => ends_with p r end.

(** sigma.rs:222-239 [Display]: [None] is [fmt::Error] *)
Fixpoint value_display (P : printers) (v : sigma_value) : option string :=
  match v with
  | SText v => Some v
  | SInt v => Some (dec_z v)
  | SFloat v => Some (f64_str P v)
  | SArray vs =>
      (fix go (l : list sigma_value) (acc : string) : option string :=
         match l with
         | [] => Some (acc ++ "]")
         | x :: r => match value_display P x with Some t => go r (acc ++ t ++ ",") | None => None end
         end) vs "["
  | SNone => None
  end.
(** [value.to_string()]: panics when [Display] returns an error *)
Definition value_to_string (P : printers) (v : sigma_value) : outcome string :=
  match value_display P v with Some s => Val s | None => Panic end.

(** [list.iter().map(f).collect()] with an [f] that may panic *)
Fixpoint map_outcome {A B} (f : A -> outcome B) (l : list A) : outcome (list B) :=
  match l with
  | [] => Val []
  | x :: r => let! y := f x in let! t := map_outcome f r in Val (y :: t)
  end.

(** sigma.rs:241-253 [From<SigmaValue> for SiemField]; [todo!()] is a panic *)
Definition value_to_field (P : printers) (v : sigma_value) : outcome field :=
  match v with
  | SText v => Val (Text v)
  | SInt v => Val (I64 v)
  | SFloat v => Val (F64 v)
  | SArray v => let! l := map_outcome (value_to_string P) v in Val (Array l)
  | SNone => Panic
  end.

(** sigma.rs:165-189 *)
Definition translate_content_to_operator (P : printers) (value : sigma_value) : outcome rule_op :=
  match value with
  | SText v =>
      let starts := starts_with "*" v in
      let ends := ends_with "*" v && negb (ends_with "\*" v) in
      if starts && ends && Nat.ltb 2 (String.length v) then
        let! t := slice 1 (String.length v - 2) v in Val (OContains t)
      else if starts then
        let! t := slice_from 1 v in Val (OStartsWith t)
      else if ends && Nat.ltb 1 (String.length v) then
        let! t := slice 0 (String.length v - 1) v in Val (OStartsWith t)
      else Val (OEquals (Text v))
  | SInt v => Val (OEquals (I64 v))
  | SFloat v => Val (OEquals (F64 v))
  | SArray v =>
      let! l := map_outcome (fun x => let! f := value_to_field P x in Val (OEquals f)) v in Val (OAny l)
  | SNone => Val (OIsNull true)
  end.

(** sigma.rs:191-220 *)
Definition translate_operator (P : printers) (operator : string) (extra : option string) (value : sigma_value) : outcome rule_op :=
  if String.eqb operator "equals" then let! f := value_to_field P value in Val (OEquals f)
  else if String.eqb operator "contains" then
    match value with
    | SText v => Val (OContains v)
    | SInt v => Val (OContains (dec_z v))
    | SFloat v => Val (OContains (f64_str P v))
    | SArray v =>
        let! l := map_outcome (fun x => let! t := value_to_string P x in Val (OContains t)) v in
        match extra with
        | Some e => if String.eqb e "all" then Val (OAll l) else Val (OAny l)
        | None => Val (OAny l)
        end
    | SNone => Val (OContains "")
    end
  else if String.eqb operator "endswith" then let! t := value_to_string P value in Val (OEndsWith t)
  else if String.eqb operator "startswith" then let! t := value_to_string P value in Val (OStartsWith t)
  else Val (OAll []).

(** sigma.rs:147-163 *)
Definition parse_rule_condition (P : printers) (key : string) (value : sigma_value) : outcome rule_cond :=
  let parts := split_on "|" key in
  let field_name := nth 0 parts "" in
  match nth_error parts 1 with
  | Some val => let! o := translate_operator P val (nth_error parts 2) value in Val (mkCond field_name o)
  | None => let! o := translate_content_to_operator P value in Val (mkCond field_name o)
  end.

(** sigma.rs:119-121, 130-132: one map, in key order *)
Definition parse_map (P : printers) (m : bt string sigma_value) : outcome (list rule_cond) :=
  map_outcome (fun kv => parse_rule_condition P (fst kv) (snd kv)) m.

(** sigma.rs:114-145 [From<SigmaRuleCondition> for SiemSubRule] *)
Definition condition_to_subrule (P : printers) (c : sigma_condition) : outcome subrule :=
  match c with
  | SMap m => let! l := parse_map P m in Val (mkSub l None)
  | SList ms => let! ls := map_outcome (parse_map P) ms in Val (mkSub (concat ls) None)
  | SNoCondition => Val (mkSub [] None)
  end.

(** sigma.rs:326-332 *)
Fixpoint parse_subrules_loop (P : printers) (ids : list (string * sigma_condition)) (ret : bt string subrule)
  : outcome (bt string subrule) :=
  match ids with
  | [] => Val ret
  | (id, c) :: r => let! s := condition_to_subrule P c in parse_subrules_loop P r (bt_insert id s ret)
  end.
Definition parse_subrules (P : printers) (rule : sigma_rule) : outcome (bt string subrule) :=
  parse_subrules_loop P (search_identifiers (sg_detection rule)) bt_empty.

(** sigma.rs:334-351: the arms of the match, in order *)
Definition level_to_severity (level : string) : severity :=
  if String.eqb level "info" then INFORMATIONAL
  else if String.eqb level "informational" then INFORMATIONAL
  else if String.eqb level "INFORMATIONAL" then INFORMATIONAL
  else if String.eqb level "low" then LOW
  else if String.eqb level "LOW" then LOW
  else if String.eqb level "medium" then MEDIUM
  else if String.eqb level "MEDIUM" then MEDIUM
  else if String.eqb level "high" then HIGH
  else if String.eqb level "HIGH" then HIGH
  else if String.eqb level "critical" then CRITICAL
  else if String.eqb level "CRITICAL" then CRITICAL
  else if String.eqb level "critic" then CRITICAL
  else if String.eqb level "CRITIC" then CRITICAL
  else LOW.

(** ** The lexer of descriptions.
    Simplification: the input is a sequence of bytes instead of characters; the characters the lexer looks
    for (NUL, ' ' and '$') are single bytes that occur in no other character's encoding. *)
(** sigma.rs:372-377 *)
Record dlexer := mkDL { dl_input : list ascii; dl_position : nat; dl_read_position : nat; dl_ch : ascii }.
(** sigma.rs:448-453 *)
Inductive dtoken := DText (s : string) | DField (s : string) | DEof.

(** sigma.rs:380-387 *)
Definition dl_new (input : list ascii) : dlexer := mkDL input 0 0 "000".
(** sigma.rs:389-397 *)
Definition dl_read_char (l : dlexer) : dlexer :=
  mkDL (dl_input l) (dl_read_position l) (S (dl_read_position l))
    (if Nat.leb (length (dl_input l)) (dl_read_position l) then "000"%char
     else nth (dl_read_position l) (dl_input l) "000"%char).
(** sigma.rs:399-408 *)
Fixpoint dl_skip_whitespace (fuel : nat) (l : dlexer) : outcome dlexer :=
  match fuel with
  | O => OutOfFuel
  | S f =>
      if Ascii.eqb (dl_ch l) " " || Ascii.eqb (dl_ch l) "009" || Ascii.eqb (dl_ch l) "010" || Ascii.eqb (dl_ch l) "013"
      then dl_skip_whitespace f (dl_read_char l) else Val l
  end.
(** sigma.rs:413-415: the loop of [read_text] *)
Fixpoint text_loop (fuel : nat) (l : dlexer) : outcome dlexer :=
  match fuel with
  | O => OutOfFuel
  | S f =>
      if Nat.ltb (dl_position l) (length (dl_input l)) && negb (Ascii.eqb (dl_ch l) "$")
      then text_loop f (dl_read_char l) else Val l
  end.
(** [l.read_position -= 1] *)
Definition dl_back (l : dlexer) : outcome dlexer :=
  match dl_read_position l with
  | O => Panic
  | S n => Val (mkDL (dl_input l) (dl_position l) n (dl_ch l))
  end.
(** sigma.rs:411-419 *)
Definition read_text (fuel : nat) (l : dlexer) : outcome (list ascii * dlexer) :=
  let position := dl_position l in
  let! l := text_loop fuel l in
  let! dt := (if Nat.leb position (dl_position l) && Nat.leb (dl_position l) (length (dl_input l))
              then Val (firstn (dl_position l - position) (skipn position (dl_input l))) else Panic) in
  let! l := dl_back l in
  Val (dt, l).
(** sigma.rs:423-426: the loop of [read_field]; [acc] is [to_ret] *)
Fixpoint field_loop (fuel : nat) (l : dlexer) (acc : list ascii) : outcome (list ascii * dlexer) :=
  match fuel with
  | O => OutOfFuel
  | S f =>
      if Nat.ltb (dl_position l) (length (dl_input l)) && negb (Ascii.eqb (dl_ch l) " ")
      then field_loop f (dl_read_char l) (acc ++ [dl_ch l])%list else Val (acc, l)
  end.
(** sigma.rs:421-429 *)
Definition read_field (fuel : nat) (l : dlexer) : outcome (list ascii * dlexer) :=
  let! (to_ret, l) := field_loop fuel l [] in
  let! l := dl_back l in
  Val (to_ret, l).
(** sigma.rs:410-445 *)
Definition dl_next_token (fuel : nat) (self : dlexer) : outcome (dtoken * dlexer) :=
  let! (tok, self) :=
    (if Ascii.eqb (dl_ch self) "$" then
       let! (data, l) := read_field fuel (dl_read_char self) in
       Val (DField (string_of_list_ascii data), l)
     else if Ascii.eqb (dl_ch self) "000" then Val (DEof, self)
     else
       let! (data, l) := read_text fuel self in
       Val (DText (string_of_list_ascii data), l)) in
  Val (tok, dl_read_char self).

(** sigma.rs:357-365: the loop of [transform_alert_content] *)
Fixpoint content_loop (fuel : nat) (l : dlexer) (to_return : list alert_content) : outcome (list alert_content) :=
  match fuel with
  | O => OutOfFuel
  | S f =>
      let! (tok, l) := dl_next_token (S (length (dl_input l))) l in
      match tok with
      | DEof => Val to_return
      | DField field => content_loop f l (to_return ++ [AField field])%list
      | DText text => content_loop f l (to_return ++ [AText text])%list
      end
  end.
(** sigma.rs:353-370. The fuel is one more than the length of the description: enough, see the theorems of C48. *)
Definition transform_alert_content (description : string) : outcome (list alert_content) :=
  let input := list_ascii_of_string description in
  let! to_return := content_loop (S (length input)) (dl_read_char (dl_new input)) [] in
  Val (match to_return with [] => [AText description] | _ => to_return end).

(** sigma.rs:293-298: recognised tags, in order; a tag starting with "attack." is cut at byte 7 *)
Fixpoint recognise {A} (try_from : string -> result A string) (tags : list string) : outcome (list A) :=
  match tags with
  | [] => Val []
  | t :: r =>
      let! rest := recognise try_from r in
      if starts_with "attack." t then
        let! cut := slice_from 7 t in
        match try_from cut with Ok a => Val (a :: rest) | Err _ => Val rest end
      else Val rest
  end.

Definition unwrap_or_default {A} (d : A) (o : option A) : A := match o with Some a => a | None => d end.

(** sigma.rs:278-324 [From<SigmaRule> for SiemRule] *)
Definition from_sigma (P : printers) (slf : sigma_rule) : outcome siem_rule :=
  let! subrules := parse_subrules P slf in
  let conditions := [] in
  let description := unwrap_or_default "" (sg_description slf) in
  let! alert_content := transform_alert_content description in
  let! tactics := (match sg_tags slf with Some v => recognise tactic_try_from v | None => Val [] end) in
  let! techniques := (match sg_tags slf with Some v => recognise technique_try_from v | None => Val [] end) in
  Val (mkRule (unwrap_or_default "" (sg_id slf)) (sg_title slf) description (mkMitre tactics techniques) []
         subrules conditions
         (mkAlert alert_content (level_to_severity (unwrap_or_default "" (sg_level slf)))
            (unwrap_or_default [] (sg_tags slf)) None)).
