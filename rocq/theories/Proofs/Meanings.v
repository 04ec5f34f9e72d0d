(* What the codes of the enumerated fields mean (C104). *)
From Verif Require Import GoBase.
Require Import List String Lia.
From Verif.Gen Require acas_ra_fields adsb adsb_airborne_position_fields adsb_surface_position_fields bds05_fields bds06_fields bds07_fields bds08_fields bds09_fields bds10_fields bds40_fields bds44_fields bds45_fields bds61_fields bds62_fields bds65_fields modes_common modes_fields.
From Verif.Spec Require Import Text Labels Meanings.
Import ListNotations.
Local Open Scope Z_scope.

Definition codes (words : list (Z * string)) : list Z := map fst words.
Definition misnamed_codes (name : string) : list Z :=
  map (fun e => snd (fst (fst e))) (filter (fun e => String.eqb (fst (fst (fst e))) name) misnamed).

Lemma misnamed_codes_in : forall name code, In code (misnamed_codes name) -> exists shown meant, In (name, code, shown, meant) misnamed.
Proof.
  intros name code H. unfold misnamed_codes in H. apply in_map_iff in H. destruct H as [[[[n c] s] m] [E I]].
  apply filter_In in I. destruct I as [I F]. cbn in E, F. apply String.eqb_eq in F. subst. exists s, m. exact I.
Qed.

Lemma not_in_cons : forall c k l, ~ In c (k :: l) -> (c =? k) = false /\ ~ In c l.
Proof. intros c k l N. split; [apply Z.eqb_neq; intros ->|intros I]; apply N; [left; reflexivity|right; exact I]. Qed.

Ltac exclude N :=
  match type of N with
  | ~ In _ [] => clear N
  | ~ In _ (_ :: _) => let F := fresh "F" in apply not_in_cons in N; destruct N as [F N]; exclude N
  end.

Ltac not_codes code :=
  repeat match goal with
  | |- context [Z.eqb code ?k] =>
    let v := eval vm_compute in k in
    match goal with F : Z.eqb code v = false |- _ => change (Z.eqb code k) with (Z.eqb code v); rewrite F end
  end.

Ltac each_word :=
  repeat first [apply Forall_nil|apply Forall_cons; [reflexivity|]].

Definition fits (form : Z -> string -> string) (e : string * (Z -> string) * list (Z * string)) : Prop :=
  Forall (fun w => snd (fst e) (fst w) = form (fst w) (snd w)) (snd e) /\
  (forall code, ~ In code (codes (snd e) ++ misnamed_codes (fst (fst e))) -> snd (fst e) code = unknown code).

Ltac one_field :=
  split; [cbn [fst snd]; each_word|
    let code := fresh "code" in let N := fresh "N" in
    intros code N; cbn [fst snd] in N |- *;
    match type of N with ~ In _ ?l => let v := eval vm_compute in l in change l with v in N end;
    exclude N;
    match goal with |- ?f code = _ => unfold f end;
    not_codes code; reflexivity].

Lemma named_fields : Forall (fits (fun code text => numeral code ++ " - " ++ text)%string) named.
Proof. unfold named. repeat (apply Forall_cons; [one_field|]). apply Forall_nil. Qed.

Lemma worded_fit : Forall (fits (fun code text => text)%string) worded.
Proof. unfold worded. repeat (apply Forall_cons; [one_field|]). apply Forall_nil. Qed.

Lemma fits_all : forall form l, Forall (fits form) l -> forall name label words, In (name, label, words) l ->
  (forall code text, In (code, text) words -> label code = form code text) /\
  (forall code, ~ (exists text, In (code, text) words) -> ~ (exists shown meant, In (name, code, shown, meant) misnamed) ->
     label code = unknown code).
Proof.
  intros form l F name label words I. rewrite Forall_forall in F. destruct (F _ I) as [W U]. cbn [fst snd] in W, U.
  rewrite Forall_forall in W. split.
  - intros code text T. exact (W (code, text) T).
  - intros code N M. apply U. intros C. apply in_app_or in C. destruct C as [C|C].
    + apply N. unfold codes in C. apply in_map_iff in C. destruct C as [[c t] [E C]]. cbn in E. subst c. exists t. exact C.
    + apply M. apply misnamed_codes_in. exact C.
Qed.

Theorem meaning_named : forall name label words, In (name, label, words) named ->
  (forall code text, In (code, text) words -> label code = (numeral code ++ " - " ++ text)%string) /\
  (forall code, ~ (exists text, In (code, text) words) -> ~ (exists shown meant, In (name, code, shown, meant) misnamed) ->
     label code = unknown code).
Proof. apply (fits_all _ _ named_fields). Qed.

Theorem meaning_worded : forall name label words, In (name, label, words) worded ->
  (forall code text, In (code, text) words -> label code = text) /\
  (forall code, ~ (exists text, In (code, text) words) -> label code = unknown code).
Proof.
  intros name label words I. destruct (fits_all _ _ worded_fit name label words I) as [W U]. split; [exact W|].
  intros code N. apply U; [exact N|]. intros [shown [meant M]].
  assert (E : In name (map (fun e => fst (fst (fst e))) misnamed)) by (apply in_map_iff; exists (name, code, shown, meant); split; [reflexivity|exact M]).
  assert (E' : In name (map (fun e => fst (fst e)) worded)) by (apply in_map_iff; exists (name, label, words); split; [reflexivity|exact I]).
  assert (C : forallb (fun n => negb (existsb (String.eqb n) (map (fun e => fst (fst (fst e))) misnamed)))
                (map (fun e => fst (fst e)) worded) = true) by (vm_compute; reflexivity).
  rewrite forallb_forall in C. specialize (C name E'). apply Bool.negb_true_iff in C.
  rewrite <- Bool.not_true_iff_false, existsb_exists in C. apply C. exists name. split; [exact E|apply String.eqb_refl].
Qed.

Theorem meaning_otherwise : forall name label words fallback, In (name, label, words, fallback) otherwise ->
  (forall code text, In (code, text) words -> label code = text) /\
  (forall code, ~ (exists text, In (code, text) words) -> label code = fallback code).
Proof.
  assert (F : Forall (fun e : string * (Z -> string) * list (Z * string) * (Z -> string) =>
    Forall (fun w => snd (fst (fst e)) (fst w) = snd w) (snd (fst e)) /\
    (forall code, ~ In code (codes (snd (fst e))) -> snd (fst (fst e)) code = snd e code)) otherwise).
  { unfold otherwise. repeat (apply Forall_cons; [one_field|]). apply Forall_nil. }
  intros name label words fallback I. rewrite Forall_forall in F. destruct (F _ I) as [W U]. cbn [fst snd] in W, U.
  rewrite Forall_forall in W. split.
  - intros code text T. exact (W (code, text) T).
  - intros code N. apply U. intros C. apply N. unfold codes in C. apply in_map_iff in C.
    destruct C as [[c t] [E C]]. cbn in E. subst c. exists t. exact C.
Qed.

(* the codes that do not show their meaning *)
Definition shows (e : string * Z * string * string) : bool :=
  let '(name, code, shown, meant) := e in
  match find (fun x => String.eqb (fst (fst x)) name) named with
  | Some x => String.eqb (snd (fst x) code) shown && negb (String.eqb shown meant)
  | None => false
  end.

Theorem misnamed_refuted : forall name code shown meant, In (name, code, shown, meant) misnamed ->
  exists label words, In (name, label, words) named /\ label code = shown /\ shown <> meant.
Proof.
  intros name code shown meant I.
  assert (C : forallb shows misnamed = true) by (vm_compute; reflexivity).
  rewrite forallb_forall in C. specialize (C _ I). unfold shows in C.
  destruct (find _ named) as [[[n l] w]|] eqn:E; [|discriminate].
  apply find_some in E. destruct E as [J E]. cbn [fst snd] in C, E. apply String.eqb_eq in E. subst n.
  apply andb_prop in C. destruct C as [C1 C2]. exists l, w. split; [exact J|]. split; [apply String.eqb_eq; exact C1|].
  apply Bool.negb_true_iff in C2. apply String.eqb_neq. exact C2.
Qed.

(* every enumerated field of the library has its meanings *)
Fixpoint place (name : string) (l : list string) : nat :=
  match l with
  | [] => O
  | n :: t => if String.eqb n name then O else S (place name t)
  end.

Definition tables : list (string * (Z -> string)) := map fst (named ++ worded).
Definition other_tables : list (string * (Z -> string)) := map (fun x => fst (fst x)) otherwise.

Ltac found_in l :=
  match goal with |- In (?n, _) _ =>
    let i := eval vm_compute in (place n (map fst l)) in
    apply (@nth_error_In _ l i); reflexivity
  end.

Lemma fields_found : Forall (fun e : string * (Z -> string) =>
    fst e = "acas_ra_fields.ThreatIdentityBearing"%string \/ In e tables \/ In e other_tables)
  (numbered_fields ++ misnumbered_fields ++ Labels.worded_fields).
Proof.
  unfold numbered_fields, misnumbered_fields, Labels.worded_fields. cbn [app].
  repeat (apply Forall_cons; [
    first [left; reflexivity
          |right; left; found_in tables
          |right; right; found_in other_tables]|]). apply Forall_nil.
Qed.

Theorem meanings_complete : forall name label, In (name, label) (numbered_fields ++ misnumbered_fields ++ worded_fields) ->
  name = "acas_ra_fields.ThreatIdentityBearing"%string \/
  (exists words, In (name, label, words) (named ++ worded)) \/
  (exists words fallback, In (name, label, words, fallback) otherwise).
Proof.
  intros name label I. pose proof fields_found as F. rewrite Forall_forall in F.
  destruct (F _ I) as [E|[E|E]]; [left; exact E|right; left|right; right].
  - apply in_map_iff in E. destruct E as [[[n l] w] [E J]]. cbn in E. injection E as <- <-. exists w. exact J.
  - apply in_map_iff in E. destruct E as [[[[n l] w] f] [E J]]. cbn in E. injection E as <- <-. exists w, f. exact J.
Qed.
