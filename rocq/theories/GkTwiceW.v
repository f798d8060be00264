(** Witnesses for C95 and C96: catalogues in binary64, sorted by the sort numpy uses. *)
From Coq Require Import ZArith Bool String List.
From Coq Require Import Floats.SpecFloat.
From Verif Require Import Base Ops FloatOps Libm CatUtil PyFloat World CatalogFilter
  Decluster DeclusterSpec HeapSort Demo.
Import ListNotations.
Local Open Scope string_scope.

(** An event at longitude 10, latitude 45. *)
Definition tev (y m d mw : string) : event FL :=
  @mkEvent FL (fl y) (fl m) (fl d) (fl "10") (fl "45") (fl mw) (fl "0").

(** An M5, an M6 300 days later, an M5 twenty years earlier, an M7 the day after the first. *)
Definition w95 : list (event FL) :=
  [ tev "1990" "1" "1" "5"; tev "1990" "10" "28" "6"; tev "1970" "1" "1" "5"; tev "1990" "1" "2" "7" ].

Definition kept95 : list (event FL) :=
  [ tev "1990" "1" "1" "5"; tev "1970" "1" "1" "5"; tev "1990" "1" "2" "7" ].

Lemma C95_first_run :
  @gardner_knopoff_decluster FL (@heap_argsort FL) w95 TDW_GARDNERKNOPOFF (fl "0")
  = Ok ([0; 1; 0; 1]%nat, kept95, [0; 1; 0; 0]%Z).
Proof. vm_cast_no_check (@eq_refl (res (list nat * list (event FL) * list Z)) (Ok ([0; 1; 0; 1]%nat, kept95, [0; 1; 0; 0]%Z))). Qed.

Lemma C95_second_run :
  @gardner_knopoff_decluster FL (@heap_argsort FL) kept95 TDW_GARDNERKNOPOFF (fl "0")
  = Ok ([1; 0; 1]%nat, firstn 2 kept95, [0; 0; 1]%Z).
Proof. vm_cast_no_check (@eq_refl (res (list nat * list (event FL) * list Z)) (Ok ([1; 0; 1]%nat, firstn 2 kept95, [0; 0; 1]%Z))). Qed.

(** An M7, an M5 the day before, an M4.9 500 days after, an old M4. *)
Definition w96 : list (event FL) :=
  [ tev "1990" "1" "2" "7"; tev "1990" "1" "1" "5"; tev "1991" "5" "17" "4.9"; tev "1950" "1" "1" "4" ].

Lemma C96_run :
  @gardner_knopoff_decluster FL (@heap_argsort FL) w96 TDW_GARDNERKNOPOFF (fl "0")
  = Ok ([2; 2; 1; 0]%nat, [ tev "1990" "1" "1" "5"; tev "1950" "1" "1" "4" ], [1; 0; 1; 0]%Z).
Proof.
  vm_cast_no_check (@eq_refl (res (list nat * list (event FL) * list Z))
    (Ok ([2; 2; 1; 0]%nat, [ tev "1990" "1" "1" "5"; tev "1950" "1" "1" "4" ], [1; 0; 1; 0]%Z))).
Qed.

Lemma C96_none : forall k' e', nth_error w96 k' = Some e' -> nth_error [1; 0; 1; 0]%Z k' = Some 0%Z ->
  @in_window FL TDW_GARDNERKNOPOFF (fl "0") e' (tev "1991" "5" "17" "4.9") = false.
Proof.
  intros [|[|[|[|k']]]] e' H F; [discriminate F| |discriminate F| |destruct k'; discriminate F];
    cbn [nth_error w96] in H; assert (E := f_equal (fun o => match o with Some x => x | None => e' end) H);
    cbv beta iota in E; rewrite <- E; vm_cast_no_check (eq_refl false).
Qed.

Lemma C95_refuted_proof :
  is_argsort (@heap_argsort FL) /\
  exists (cat : list (event FL)) w fs vcl vmain flag vcl2 vmain2 flag2,
    @gardner_knopoff_decluster FL (@heap_argsort FL) cat w fs = Ok (vcl, vmain, flag) /\
    @gardner_knopoff_decluster FL (@heap_argsort FL) vmain w fs = Ok (vcl2, vmain2, flag2) /\
    vmain2 <> vmain.
Proof.
  split; [apply heap_is_argsort|].
  exists w95, TDW_GARDNERKNOPOFF, (fl "0"), [0; 1; 0; 1]%nat, kept95, [0; 1; 0; 0]%Z,
    [1; 0; 1]%nat, (firstn 2 kept95), [0; 0; 1]%Z.
  split; [exact C95_first_run|]. split; [exact C95_second_run|].
  intros H. apply (f_equal (@length _)) in H. discriminate H.
Qed.

Lemma C96_refuted_proof :
  exists (cat : list (event FL)) w fs vcl vmain flag,
    @gardner_knopoff_decluster FL (@heap_argsort FL) cat w fs = Ok (vcl, vmain, flag) /\
    exists k e z, nth_error cat k = Some e /\ nth_error flag k = Some z /\ z <> 0%Z /\
    forall k' e', nth_error cat k' = Some e' -> nth_error flag k' = Some 0%Z ->
      @in_window FL w fs e' e = false.
Proof.
  exists w96, TDW_GARDNERKNOPOFF, (fl "0"). do 3 eexists. split; [exact C96_run|].
  exists 2%nat, (tev "1991" "5" "17" "4.9"), 1%Z.
  split; [reflexivity|]. split; [reflexivity|]. split; [discriminate|]. exact C96_none.
Qed.

(** An M7 and an M5 the day before; an old M4 elsewhere in time. *)
Definition w97 : list (event FL) := [ tev "1990" "1" "2" "7"; tev "1990" "1" "1" "5" ].
Definition far97 : event FL := tev "1950" "1" "1" "4".

Lemma C97_run :
  @gardner_knopoff_decluster FL (@heap_argsort FL) w97 TDW_GARDNERKNOPOFF (fl "0")
  = Ok ([0; 0]%nat, w97, [0; 0]%Z).
Proof.
  vm_cast_no_check (@eq_refl (res (list nat * list (event FL) * list Z)) (Ok ([0; 0]%nat, w97, [0; 0]%Z))).
Qed.

Lemma C97_run' :
  @gardner_knopoff_decluster FL (@heap_argsort FL) (w97 ++ [far97]) TDW_GARDNERKNOPOFF (fl "0")
  = Ok ([1; 1; 0]%nat, [tev "1990" "1" "1" "5"; far97], [1; 0; 0]%Z).
Proof.
  vm_cast_no_check (@eq_refl (res (list nat * list (event FL) * list Z))
    (Ok ([1; 1; 0]%nat, [tev "1990" "1" "1" "5"; far97], [1; 0; 0]%Z))).
Qed.

Lemma C97_far : forall x, In x w97 ->
  @in_window FL TDW_GARDNERKNOPOFF (fl "0") far97 x = false /\
  @in_window FL TDW_GARDNERKNOPOFF (fl "0") x far97 = false.
Proof.
  intros x [E|[E|[]]]; rewrite <- E; split; vm_cast_no_check (eq_refl false).
Qed.

Lemma C97_refuted_proof :
  exists (cat : list (event FL)) e w fs vcl vmain flag vcl' vmain' flag',
    @gardner_knopoff_decluster FL (@heap_argsort FL) cat w fs = Ok (vcl, vmain, flag) /\
    @gardner_knopoff_decluster FL (@heap_argsort FL) (cat ++ [e]) w fs = Ok (vcl', vmain', flag') /\
    (forall x, In x cat -> @in_window FL w fs e x = false /\ @in_window FL w fs x e = false) /\
    exists k, k < length cat /\ nth_error flag k = Some 0%Z /\ nth_error flag' k = Some 1%Z.
Proof.
  exists w97, far97, TDW_GARDNERKNOPOFF, (fl "0"). do 6 eexists.
  split; [exact C97_run|]. split; [exact C97_run'|]. split; [exact C97_far|].
  exists 0%nat. repeat split. cbn. auto.
Qed.
