(** Sigma conditions (https://github.com/SigmaHQ/sigma-specification): values with wildcards and modifiers. *)
From Coq Require Import String Ascii ZArith List Bool.
From Verif Require Import Base.Str Base.BTree Model.Field Model.Rule Model.Sigma.
Import ListNotations.
Local Open Scope string_scope.

(** A value is a pattern: '*' any text, '?' any single character, backslash escapes '*', '?' and itself and is
    an ordinary character before anything else. (Sigma also ignores letter case: not considered here.) *)
Inductive ptok := Lit (c : ascii) | Star | Quest.
Fixpoint sigma_pattern (s : string) : list ptok :=
  match s with
  | EmptyString => []
  | String "\" (String "*" r) => Lit "*" :: sigma_pattern r
  | String "\" (String "?" r) => Lit "?" :: sigma_pattern r
  | String "\" (String "\" r) => Lit "\" :: sigma_pattern r
  | String "*" r => Star :: sigma_pattern r
  | String "?" r => Quest :: sigma_pattern r
  | String c r => Lit c :: sigma_pattern r
  end.
Inductive gmatch : list ptok -> string -> Prop :=
| gm_nil : gmatch [] ""
| gm_lit c ps s : gmatch ps s -> gmatch (Lit c :: ps) (String c s)
| gm_quest c ps s : gmatch ps s -> gmatch (Quest :: ps) (String c s)
| gm_star ps a s : gmatch ps s -> gmatch (Star :: ps) (a ++ s).

Definition lits (s : string) : list ptok := map Lit (list_ascii_of_string s).
(** A text without wildcards and escapes *)
Definition literal (s : string) : Prop := sigma_pattern s = lits s.

(** The modifiers *)
Inductive how := Whole | Substring | Prefixed | Suffixed.
Definition wrap (h : how) (p : list ptok) : list ptok :=
  match h with
  | Whole => p
  | Substring => (Star :: p ++ [Star])%list
  | Prefixed => (p ++ [Star])%list
  | Suffixed => Star :: p
  end.
(** The key of a condition, as written in the Sigma rule *)
Definition key (name : string) (h : how) (all : bool) : string :=
  name ++ match h with Whole => "" | Substring => "|contains" | Prefixed => "|startswith" | Suffixed => "|endswith" end
       ++ (if all then "|all" else "").

Definition scalar_pattern (P : printers) (v : sigma_value) : option (list ptok) :=
  match v with
  | SText s => Some (sigma_pattern s)
  | SInt z => Some (lits (dec_z z))
  | SFloat x => Some (lits (f64_str P x))
  | SArray _ | SNone => None
  end.
Definition scalar_means (P : printers) (h : how) (v : sigma_value) (s : string) : Prop :=
  exists p, scalar_pattern P v = Some p /\ gmatch (wrap h p) s.
(** A list of values is an alternative, or a conjunction with the modifier "all". *)
Definition sigma_means (P : printers) (h : how) (all : bool) (v : sigma_value) (s : string) : Prop :=
  match v with
  | SArray vs => if all then Forall (fun x => scalar_means P h x s) vs else Exists (fun x => scalar_means P h x s) vs
  | v => scalar_means P h v s
  end.

(** Values without wildcards, escapes, nulls and nested lists *)
Definition literal_scalar (v : sigma_value) : Prop :=
  match v with SText s => literal s | SInt _ | SFloat _ => True | SArray _ | SNone => False end.
Definition literal_value (v : sigma_value) : Prop :=
  match v with SArray vs => Forall literal_scalar vs | v => literal_scalar v end.
Definition is_list (v : sigma_value) : Prop := match v with SArray _ => True | _ => False end.

(** Whether the translation keeps the meaning: lists only without modifiers or with "contains". *)
Definition supported (h : how) (all : bool) (v : sigma_value) : Prop :=
  match h with
  | Substring => all = true -> is_list v
  | Whole => all = false
  | _ => all = false /\ ~ is_list v
  end.
(** Bytes that do not begin a character in UTF-8: 10xxxxxx *)
Definition continuation (c : ascii) : bool := (128 <=? N_of_ascii c)%N && (N_of_ascii c <? 192)%N.
(** A text does not start in the middle of a character (true of all valid UTF-8). *)
Definition head_ok (x : string) : Prop := continuation (match x with String d _ => d | _ => "000"%char end) = false.

(** ** Alert texts *)
(** [template d ps]: cutting a description into texts and references "$name"; a reference ends at a space. *)
Definition first_is (c : ascii) (s : string) : Prop := exists r, s = String c r.
Inductive template : string -> list alert_content -> Prop :=
| tpl_nil : template "" []
| tpl_text x r ps :
    x <> "" -> str_has "$" x = false -> r = "" \/ first_is "$" r -> template r ps -> template (x ++ r) (AText x :: ps)
| tpl_field f r ps :
    str_has " " f = false -> r = "" \/ first_is " " r -> template r ps -> template ("$" ++ f ++ r) (AField f :: ps).
(** The source text of a part *)
Definition part_source (p : alert_content) : string :=
  match p with AText x => x | AField f => "$" ++ f | AMatchedRules x => x end.
Fixpoint source (ps : list alert_content) : string :=
  match ps with [] => "" | p :: r => part_source p ++ source r end.

(** ** Tags *)
(** The MITRE identifier of a variant: its name with '.' for '_' *)
Definition mitre_id (name : string) : string := smap (fun c => if Ascii.eqb c "_" then "."%char else c) name.
Definition spells (name s : string) : Prop := s = mitre_id name \/ s = to_lower (mitre_id name).
(** [tagged names tags xs]: [xs] are the things named by the tags of the form "attack.<name>", in the order of the tags. *)
Inductive tagged {A} (names : A -> string -> Prop) : list string -> list A -> Prop :=
| tag_nil : tagged names [] []
| tag_keep s a tags xs : names a s -> tagged names tags xs -> tagged names (("attack." ++ s) :: tags) (a :: xs)
| tag_drop t tags xs : (forall a s, t = "attack." ++ s -> ~ names a s) -> tagged names tags xs -> tagged names (t :: tags) xs.
