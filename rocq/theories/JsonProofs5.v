(** Proofs for C83: the JSON form of the power mode. *)
From Coq Require Import String.
From Verif Require Import SpecJson JsonPower JsonProofs4.
Import ListNotations.
Local Open Scope string_scope.

Lemma power_survives m : power_mode_of_json (power_mode_json m) = Some m.
Proof. destruct m as [[| |] [[|]|]]; reflexivity. Qed.
Lemma power_at_paths m :
  at_path [F "state"] (power_mode_json m) =
    Some (JString (match pm_state m with PowerOff => T "off" | PowerLow => T "low" | PowerHigh => T "high" end)) /\
  at_path [F "software_override"] (power_mode_json m) = Some (flag_or_null (pm_override m)).
Proof. destruct m as [[| |] [[|]|]]; split; reflexivity. Qed.
Lemma power_reader : object_reader ["state"] ["software_override"] power_mode_of_json.
Proof. unfold power_mode_of_json. reader. Qed.

Lemma led_survives s : led_state_of_json (led_state_json s) = Some s.
Proof. now destruct s. Qed.
Lemma eqb_text a : forall b, text_eqb a b = true -> a = b.
Proof.
  induction a as [|x a IH]; intros [|y b]; cbn; try discriminate; [reflexivity|]. intro H. apply Bool.andb_true_iff in H. destruct H as [H1 H2].
  apply N.eqb_eq in H1. f_equal; auto.
Qed.
Lemma led_only j s : led_state_of_json j = Some s ->
  exists t, (j = JString t \/ j = JObject [(t, JNull)]) /\ t = match s with LedOff => T "off" | LedOn => T "on" | LedBlink => T "blink" end.
Proof.
  assert (K : forall t, match find (fun x => text_eqb (T (fst x)) t) [("off", LedOff); ("on", LedOn); ("blink", LedBlink)] with Some (_, a) => Some a | None => None end = Some s ->
    t = match s with LedOff => T "off" | LedOn => T "on" | LedBlink => T "blink" end).
  { intro t. cbn [find fst]. destruct (text_eqb (T "off") t) eqn:E1; [intros [= <-]; symmetry; now apply eqb_text|].
    destruct (text_eqb (T "on") t) eqn:E2; [intros [= <-]; symmetry; now apply eqb_text|].
    destruct (text_eqb (T "blink") t) eqn:E3; [intros [= <-]; symmetry; now apply eqb_text|discriminate]. }
  unfold led_state_of_json, of_unit_variant. destruct j as [|b|n|x|t|l|l]; try discriminate.
  - intro H. exists t. split; [now left|now apply K].
  - destruct l as [|[t []] []]; try discriminate. intro H. exists t. split; [now right|now apply K].
Qed.
