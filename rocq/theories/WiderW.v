(** Witnesses for C118: a wider window leaves more main shocks. *)
From Coq Require Import ZArith Bool String List Permutation.
From Verif Require Import Base Ops FloatOps Libm CatUtil PyFloat World CatalogFilter
  Decluster DeclusterSpec HeapSort Demo.
Import ListNotations.
Local Open Scope string_scope.

Definition placed (y m d lon lat mw : string) : event FL :=
  @mkEvent FL (fl y) (fl m) (fl d) (fl lon) (fl lat) (fl mw) (fl "0").

(** An M5 65 km from an M7, and an M4 and an M3.9 37 km from the M5 on either side, ten days after it. *)
Definition big_after := placed "1990" "6" "1" "0" "0" "7".
Definition big_before := placed "1990" "1" "1" "0" "0" "7".
Definition middle := placed "1990" "4" "1" "0.585" "0" "5".
Definition north := placed "1990" "4" "11" "0.585" "0.333" "4".
Definition south := placed "1990" "4" "12" "0.585" "-0.333" "3.9".

Definition out := (res (list nat * list (event FL) * list Z))%type.

Lemma gk_narrow : @gardner_knopoff_decluster FL (@heap_argsort FL) [big_after; middle; north; south] TDW_GARDNERKNOPOFF (fl "0")
  = Ok ([0; 1; 1; 1]%nat, [big_after; middle], [0; 0; 1; 1]%Z).
Proof. vm_cast_no_check (@eq_refl out (Ok ([0; 1; 1; 1]%nat, [big_after; middle], [0; 0; 1; 1]%Z))). Qed.

Lemma gk_wide : @gardner_knopoff_decluster FL (@heap_argsort FL) [big_after; middle; north; south] TDW_GARDNERKNOPOFF (fl "0.5")
  = Ok ([1; 1; 0; 0]%nat, [big_after; north; south], [0; -1; 0; 0]%Z).
Proof. vm_cast_no_check (@eq_refl out (Ok ([1; 1; 0; 0]%nat, [big_after; north; south], [0; -1; 0; 0]%Z))). Qed.

Lemma af_narrow : @afteran_decluster FL (@heap_argsort FL) [big_before; middle; north; south] TDW_GARDNERKNOPOFF (fl "30")
  = Ok ([0; 1; 1; 1]%nat, [big_before; middle], [0; 0; 1; 1]%Z).
Proof. vm_cast_no_check (@eq_refl out (Ok ([0; 1; 1; 1]%nat, [big_before; middle], [0; 0; 1; 1]%Z))). Qed.

Lemma af_wide : @afteran_decluster FL (@heap_argsort FL) [big_before; middle; north; south] TDW_GARDNERKNOPOFF (fl "100")
  = Ok ([1; 1; 0; 0]%nat, [big_before; north; south], [0; 1; 0; 0]%Z).
Proof. vm_cast_no_check (@eq_refl out (Ok ([1; 1; 0; 0]%nat, [big_before; north; south], [0; 1; 0; 0]%Z))). Qed.

Lemma wider_1 : @ltb FL (fl "0") (fl "0.5") = true.
Proof. vm_cast_no_check (@eq_refl bool true). Qed.
Lemma wider_2 : @ltb FL (fl "30") (fl "100") = true.
Proof. vm_cast_no_check (@eq_refl bool true). Qed.

Lemma C118_refuted_proof :
  is_argsort (@heap_argsort FL) /\
  (exists (cat : list (event FL)) w fs fs' vcl vmain flag vcl' vmain' flag',
    @ltb FL fs fs' = true /\
    @gardner_knopoff_decluster FL (@heap_argsort FL) cat w fs = Ok (vcl, vmain, flag) /\
    @gardner_knopoff_decluster FL (@heap_argsort FL) cat w fs' = Ok (vcl', vmain', flag') /\
    length vmain < length vmain') /\
  (exists (cat : list (event FL)) w tw tw' vcl vmain flag vcl' vmain' flag',
    @ltb FL tw tw' = true /\
    @afteran_decluster FL (@heap_argsort FL) cat w tw = Ok (vcl, vmain, flag) /\
    @afteran_decluster FL (@heap_argsort FL) cat w tw' = Ok (vcl', vmain', flag') /\
    length vmain < length vmain').
Proof.
  split; [apply heap_is_argsort|]. split.
  - exists [big_after; middle; north; south], TDW_GARDNERKNOPOFF, (fl "0"), (fl "0.5"),
      [0; 1; 1; 1]%nat, [big_after; middle], [0; 0; 1; 1]%Z, [1; 1; 0; 0]%nat, [big_after; north; south], [0; -1; 0; 0]%Z.
    split; [exact wider_1|]. split; [exact gk_narrow|]. split; [exact gk_wide|]. cbn [length]. apply le_n.
  - exists [big_before; middle; north; south], TDW_GARDNERKNOPOFF, (fl "30"), (fl "100"),
      [0; 1; 1; 1]%nat, [big_before; middle], [0; 0; 1; 1]%Z, [1; 1; 0; 0]%nat, [big_before; north; south], [0; 1; 0; 0]%Z.
    split; [exact wider_2|]. split; [exact af_narrow|]. split; [exact af_wide|]. cbn [length]. apply le_n.
Qed.
