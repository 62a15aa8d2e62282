(* Transcription of common/include/logger.hpp.  The C++ library's to_string on doubles
   and ints, and the double type itself, are parameters; the int counter is unbounded. *)
From Coq Require Import ZArith List String.
Import ListNotations.
Open Scope Z_scope.
Open Scope string_scope.
Set Implicit Arguments.

(* logger.hpp:10-11 *)
Inductive eventType := success | rejectedStep | NewtonFailed | NewtonWillNotConverge | changedH | all.
Definition ev_eqb (a b : eventType) : bool :=
  match a, b with
  | success, success | rejectedStep, rejectedStep | NewtonFailed, NewtonFailed
  | NewtonWillNotConverge, NewtonWillNotConverge | changedH, changedH | all, all => true
  | _, _ => false end.

Section Logger.
Variable dbl : Type.
(* std::to_string(double), std::to_string(int) *)
Variable tos_d : dbl -> string.
Variable tos_i : Z -> string.

(* struct event, lines 20-29 *)
Record event := Ev { ev_time : dbl; ev_value : dbl; ev_step : Z; ev_type : eventType }.
(* names, lines 31-32 *)
Definition names (e : eventType) : string :=
  match e with
  | success => "success" | rejectedStep => "rejectedStep" | NewtonFailed => "NewtonFailed"
  | NewtonWillNotConverge => "NewtonWillNotConverge" | changedH => "changedH" | all => "all" end.
(* put, lines 49-52; clear, lines 40-43 *)
Definition log_put (L : list event) (time : dbl) (step : Z) (e : eventType) (value : dbl) : list event :=
  L ++ [Ev time value step e].
Definition log_clear (L : list event) : list event := [].
(* tostring, lines 55-76; newline is character 10 *)
Definition nl : string := String (Ascii.ascii_of_nat 10) EmptyString.
Fixpoint tostring_loop (E : eventType) (its : list event) (count : Z) (ret : string) : string :=
  match its with
  | [] => ret
  | ev :: its =>
      if ev_eqb (ev_type ev) E || ev_eqb E all then
        let count := count + 1 in
        let tmp := tos_i count ++ " Time: " ++ tos_d (ev_time ev) ++ " step: " ++ tos_i (ev_step ev)
                   ++ " Event: " ++ names (ev_type ev) in
        let tmp := if ev_eqb (ev_type ev) changedH || ev_eqb (ev_type ev) rejectedStep
                   then tmp ++ " new step: " ++ tos_d (ev_value ev) else tmp in
        let tmp := tmp ++ nl in
        tostring_loop E its count (ret ++ tmp)
      else tostring_loop E its count ret
  end%bool.
Definition tostring (L : list event) (E : eventType) : string := tostring_loop E L 0 "".
End Logger.
