From Coq Require Import String Ascii NArith ZArith List Bool.
From Verif Require Import Base.Arith Base.Ord Base.BTree Base.Str Base.Outcome Proofs.TextP Model.Mac Model.Ip Model.Field Model.Log Model.Schema Model.BaseSchema
  Model.EventEnums Model.Events Spec.MacSpec Proofs.IpPrintP Proofs.MacP.
Import ListNotations.
Local Open Scope string_scope.

(** ** Names of enum variants are injective *)
Lemma nodup_map_inj {A B} (f : A -> B) l : NoDup (map f l) -> forall x y, In x l -> In y l -> f x = f y -> x = y.
Proof.
  induction l as [|a l IH]; cbn; [intros _ x y []|]. intros N x y Hx Hy E. inversion N as [|? ? Hn Hl]; subst.
  destruct Hx as [<-|Hx], Hy as [<-|Hy]; auto.
  - exfalso; apply Hn. rewrite E. apply in_map, Hy.
  - exfalso; apply Hn. rewrite <- E. apply in_map, Hx.
Qed.
Fixpoint nodupb (l : list string) : bool :=
  match l with [] => true | x :: r => negb (existsb (String.eqb x) r) && nodupb r end.
Lemma nodupb_ok l : nodupb l = true -> NoDup l.
Proof.
  induction l as [|x l IH]; cbn; [constructor|]. intros H. apply andb_true_iff in H as [H1 H2]. constructor; [|auto].
  intros Hin. apply negb_true_iff in H1. assert (existsb (String.eqb x) l = true); [|congruence].
  apply existsb_exists. exists x. split; [exact Hin|apply String.eqb_refl].
Qed.
Ltac in_all := repeat (first [left; reflexivity | right]).
Lemma str_app_inj_l (a b c : string) : a ++ b = a ++ c -> b = c.
Proof. induction a as [|x a IH]; cbn; [auto|]. intros H. injection H. auto. Qed.
Lemma str_app_inj_tail (a b : string) x : a ++ String x "" = b ++ String x "" -> a = b.
Proof.
  revert b. induction a as [|y a IH]; intros [|z b]; cbn; intros H; [reflexivity| | |]; injection H.
  - intros H1 _. destruct b; discriminate H1.
  - intros H1 _. destruct a; discriminate H1.
  - intros H1 ->. f_equal. auto.
Qed.
Lemma paren_inj p (dbg : string -> string) s t : (forall x y, dbg x = dbg y -> x = y) ->
  p ++ (dbg s ++ ")") = p ++ (dbg t ++ ")") -> s = t.
Proof. intros I H. apply str_app_inj_l in H. apply str_app_inj_tail in H. apply I, H. Qed.

Lemma net_protocol_cases x : In x net_protocol_all \/ exists s, x = NP_OTHER s.
Proof. destruct x; try (right; eexists; reflexivity); left; unfold net_protocol_all; in_all. Qed.
Lemma web_category_cases x : In x web_category_all \/ exists s, x = WC_Others s.
Proof. destruct x; try (right; eexists; reflexivity); left; unfold web_category_all; in_all. Qed.
Lemma intrusion_category_cases x : In x intrusion_category_all.
Proof. destruct x; unfold intrusion_category_all; in_all. Qed.

Lemma has_paren_in {A} (f : A -> string) l x : forallb (fun x => negb (str_has "("%char (f x))) l = true -> In x l -> str_has "("%char (f x) = false.
Proof. intros H Hin. rewrite forallb_forall in H. apply H in Hin. apply negb_true_iff, Hin. Qed.
Lemma net_protocol_inj dbg a b : (forall x y, dbg x = dbg y -> x = y) -> net_protocol_str dbg a = net_protocol_str dbg b -> a = b.
Proof.
  intros I E.
  assert (N : NoDup (map (net_protocol_str dbg) net_protocol_all)).
  { apply nodupb_ok. vm_compute. reflexivity. }
  assert (Q : forall x, In x net_protocol_all -> str_has "("%char (net_protocol_str dbg x) = false).
  { intros x. apply has_paren_in. vm_compute. reflexivity. }
  assert (O : forall s, str_has "("%char (net_protocol_str dbg (NP_OTHER s)) = true) by reflexivity.
  destruct (net_protocol_cases a) as [Ha|[s ->]], (net_protocol_cases b) as [Hb|[t ->]].
  - eapply nodup_map_inj; eauto.
  - apply Q in Ha. rewrite E, O in Ha. discriminate.
  - apply Q in Hb. rewrite <- E, O in Hb. discriminate.
  - f_equal. exact (paren_inj "OTHER(" dbg s t I E).
Qed.
Lemma web_category_inj dbg a b : (forall x y, dbg x = dbg y -> x = y) -> web_category_str dbg a = web_category_str dbg b -> a = b.
Proof.
  intros I E.
  assert (N : NoDup (map (web_category_str dbg) web_category_all)).
  { apply nodupb_ok. vm_compute. reflexivity. }
  assert (Q : forall x, In x web_category_all -> str_has "("%char (web_category_str dbg x) = false).
  { intros x. apply has_paren_in. vm_compute. reflexivity. }
  assert (O : forall s, str_has "("%char (web_category_str dbg (WC_Others s)) = true) by reflexivity.
  destruct (web_category_cases a) as [Ha|[s ->]], (web_category_cases b) as [Hb|[t ->]].
  - eapply nodup_map_inj; eauto.
  - apply Q in Ha. rewrite E, O in Ha. discriminate.
  - apply Q in Hb. rewrite <- E, O in Hb. discriminate.
  - f_equal. exact (paren_inj "Others(" dbg s t I E).
Qed.
Lemma intrusion_category_inj dbg a b : intrusion_category_str dbg a = intrusion_category_str dbg b -> a = b.
Proof.
  intros E. assert (N : NoDup (map (intrusion_category_str dbg) intrusion_category_all)).
  { apply nodupb_ok. vm_compute. reflexivity. }
  eapply nodup_map_inj; eauto using intrusion_category_cases.
Qed.
Lemma http_method_inj dbg a b : (forall x y, dbg x = dbg y -> x = y) -> http_method_str dbg a = http_method_str dbg b -> a = b.
Proof. intros I. destruct a as [s| | | | | | | |], b as [t| | | | | | | |]; cbn; intros E; try reflexivity; try discriminate E. f_equal. exact (paren_inj "UNKNOWN(" dbg s t I E). Qed.
Lemma web_protocol_inj dbg a b : (forall x y, dbg x = dbg y -> x = y) -> web_protocol_str dbg a = web_protocol_str dbg b -> a = b.
Proof. intros I. destruct a as [s| | | | |], b as [t| | | | |]; cbn; intros E; try reflexivity; try discriminate E. f_equal. exact (paren_inj "UNKNOWN(" dbg s t I E). Qed.
Lemma fw_outcome_inj a b : fw_outcome_str a = fw_outcome_str b -> a = b.
Proof. destruct a, b; intros; try reflexivity; discriminate. Qed.
Lemma web_outcome_inj a b : web_outcome_str a = web_outcome_str b -> a = b.
Proof. destruct a, b; intros; try reflexivity; discriminate. Qed.
Lemma dns_type_inj a b : dns_type_str a = dns_type_str b -> a = b.
Proof. destruct a, b; intros; try reflexivity; discriminate. Qed.
Lemma dhcp_type_inj a b : dhcp_type_str a = dhcp_type_str b -> a = b.
Proof. destruct a, b; intros; try reflexivity; discriminate. Qed.
Lemma intrusion_outcome_inj a b : intrusion_outcome_str a = intrusion_outcome_str b -> a = b.
Proof. destruct a, b; intros; try reflexivity; discriminate. Qed.
Lemma login_outcome_inj a b : login_outcome_str a = login_outcome_str b -> a = b.
Proof. destruct a, b; intros; try reflexivity; discriminate. Qed.

(** ** auth *)
Lemma add_parsed_ip_total name addr g : exists r, from_ip_str addr = Val r /\
  add_parsed_ip name addr g = Val (match r with Ok ip => add_field name (IP ip) g | Err _ => g end).
Proof. destruct (from_ip_str_total addr) as (r & E & _). exists r. unfold add_parsed_ip. rewrite E. auto. Qed.
