(** Model of the JSON forms of the power mode and of the LED state (feature [api-traits] of the controller and messages crates), as Json.v. *)
From Coq Require Import String.
From Verif Require Export Json Types Message.
Import ListNotations.
Local Open Scope string_scope.

(** controller/src/lib.rs:266-290 *)
Definition power_state_json (s : PowerState) : json :=
  JString (match s with PowerOff => T "off" | PowerLow => T "low" | PowerHigh => T "high" end).
Definition power_state_of_json : json -> option PowerState :=
  of_unit_variant [("off", PowerOff); ("low", PowerLow); ("high", PowerHigh)].
(** controller/src/lib.rs:306-320 *)
Definition power_mode_json (m : PowerMode) : json :=
  JObject [(T "state", power_state_json (pm_state m));
           (T "software_override", option_json JBool (pm_override m))].
Definition power_mode_of_json : json -> option PowerMode :=
  of_object (fun l =>
    s <-! required "state" power_state_of_json l ;;
    o <-! optional "software_override" bool_of_json l ;;
    Some (mkPowerMode s o)).
(** messages/src/message.rs:1030-1050 *)
Definition led_state_json (s : LedState) : json := JString (match s with LedOff => T "off" | LedOn => T "on" | LedBlink => T "blink" end).
Definition led_state_of_json : json -> option LedState := of_unit_variant [("off", LedOff); ("on", LedOn); ("blink", LedBlink)].
