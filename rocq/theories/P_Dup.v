(** C140: an earthquake listed twice is kept at most once by declustering. *)
From Coq Require Import ZArith List Bool Reals String.
From Verif Require Import Base Ops FloatOps Demo CatUtil World Decluster DeclusterSpec HeapSort DupSpec DupProofs.
Local Open Scope string_scope.

Theorem C140_window : forall (AR : Ops) argsort, is_argsort argsort ->
  forall (cat : list (event AR)) w fs vcl vmain flag k e k' e',
  gardner_knopoff_decluster argsort cat w fs = Ok (vcl, vmain, flag) ->
  nth_error cat k = Some e -> nth_error cat k' = Some e' -> k' <> k ->
  in_window w fs e e' = true -> in_window w fs e' e = true ->
  ~ (nth_error flag k = Some 0%Z /\ nth_error flag k' = Some 0%Z).
Proof. exact C140_window_proof. Qed.
Print Assumptions C140_window.

(** Over the reals; missing: AFTERAN, for which the claim is false (below). *)
Theorem C140_gk_partial : forall argsort, @is_argsort ROps argsort -> forall (cat : list (event ROps)) w (fs : R) vcl vmain flag k e k' e',
  @gardner_knopoff_decluster ROps argsort cat w fs = Ok (vcl, vmain, flag) -> (0 <= fs)%R ->
  nth_error cat k = Some e -> nth_error cat k' = Some e' -> k' <> k -> same_date_and_place e e' ->
  ~ (nth_error flag k = Some 0%Z /\ nth_error flag k' = Some 0%Z).
Proof. exact C140_gk_proof. Qed.
Print Assumptions C140_gk_partial.

(** In binary64, with numpy's sort: AFTERAN keeps both rows of an event listed twice. *)
Theorem C140_afteran_refuted : is_argsort (@heap_argsort FL) /\
  exists (cat : list (event FL)) w tw vcl vmain flag k e k',
    @afteran_decluster FL (@heap_argsort FL) cat w tw = Ok (vcl, vmain, flag) /\
    nth_error cat k = Some e /\ nth_error cat k' = Some e /\ k' <> k /\
    nth_error flag k = Some 0%Z /\ nth_error flag k' = Some 0%Z.
Proof. exact C140_afteran_refuted_proof. Qed.
Print Assumptions C140_afteran_refuted.

Example C140_case :
  let e := @mkEvent ROps 1990%R 1%R 1%R 10%R 45%R 5%R 0%R in let e' := @mkEvent ROps 1990%R 1%R 1%R 10%R 45%R 6%R 0%R in
  same_date_and_place e e' /\ e <> e' /\
  (exists r, @gardner_knopoff_decluster FL (@heap_argsort FL) w140 TDW_GARDNERKNOPOFF (fl "0") = Ok r /\ snd r = cons 0%Z (cons 1%Z (cons 0%Z nil))).
Proof. exact C140_case_proof. Qed.
