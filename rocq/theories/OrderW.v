(** Witnesses for C101: equal magnitudes in binary64, sorted by the sort numpy uses. *)
From Coq Require Import ZArith Bool String List Permutation.
From Verif Require Import Base Ops FloatOps Libm CatUtil PyFloat World CatalogFilter
  Decluster DeclusterSpec HeapSort Demo GkTwiceW.
Import ListNotations.
Local Open Scope string_scope.

(** Three M5 at one place, three months apart. *)
Definition jan := tev "1990" "1" "1" "5".
Definition apr := tev "1990" "4" "1" "5".
Definition jul := tev "1990" "7" "1" "5".

Lemma gk_in_order : @gardner_knopoff_decluster FL (@heap_argsort FL) [jan; apr; jul] TDW_GARDNERKNOPOFF (fl "1")
  = Ok ([1; 2; 2]%nat, [jan; jul], [0; -1; 0]%Z).
Proof. vm_cast_no_check (@eq_refl (res (list nat * list (event FL) * list Z)) (Ok ([1; 2; 2]%nat, [jan; jul], [0; -1; 0]%Z))). Qed.

Lemma gk_other_order : @gardner_knopoff_decluster FL (@heap_argsort FL) [apr; jan; jul] TDW_GARDNERKNOPOFF (fl "1")
  = Ok ([1; 1; 1]%nat, [apr], [0; -1; 1]%Z).
Proof. vm_cast_no_check (@eq_refl (res (list nat * list (event FL) * list Z)) (Ok ([1; 1; 1]%nat, [apr], [0; -1; 1]%Z))). Qed.

Lemma af_in_order : @afteran_decluster FL (@heap_argsort FL) [jan; apr; jul] TDW_GARDNERKNOPOFF (fl "100")
  = Ok ([1; 1; 0]%nat, [jan; jul], [0; 1; 0]%Z).
Proof. vm_cast_no_check (@eq_refl (res (list nat * list (event FL) * list Z)) (Ok ([1; 1; 0]%nat, [jan; jul], [0; 1; 0]%Z))). Qed.

Lemma af_other_order : @afteran_decluster FL (@heap_argsort FL) [jan; jul; apr] TDW_GARDNERKNOPOFF (fl "100")
  = Ok ([1; 1; 1]%nat, [jan], [0; 1; 1]%Z).
Proof. vm_cast_no_check (@eq_refl (res (list nat * list (event FL) * list Z)) (Ok ([1; 1; 1]%nat, [jan], [0; 1; 1]%Z))). Qed.

Lemma C101_refuted_proof :
  is_argsort (@heap_argsort FL) /\
  (exists (cat cat' : list (event FL)) w fs vcl vmain flag vcl' vmain' flag',
    Permutation cat cat' /\
    @gardner_knopoff_decluster FL (@heap_argsort FL) cat w fs = Ok (vcl, vmain, flag) /\
    @gardner_knopoff_decluster FL (@heap_argsort FL) cat' w fs = Ok (vcl', vmain', flag') /\
    length vmain <> length vmain') /\
  (exists (cat cat' : list (event FL)) w tw vcl vmain flag vcl' vmain' flag',
    Permutation cat cat' /\
    @afteran_decluster FL (@heap_argsort FL) cat w tw = Ok (vcl, vmain, flag) /\
    @afteran_decluster FL (@heap_argsort FL) cat' w tw = Ok (vcl', vmain', flag') /\
    length vmain <> length vmain').
Proof.
  split; [apply heap_is_argsort|]. split.
  - exists [jan; apr; jul], [apr; jan; jul], TDW_GARDNERKNOPOFF, (fl "1"),
      [1; 2; 2]%nat, [jan; jul], [0; -1; 0]%Z, [1; 1; 1]%nat, [apr], [0; -1; 1]%Z.
    split; [apply perm_swap|]. split; [exact gk_in_order|]. split; [exact gk_other_order|]. cbn [length]. congruence.
  - exists [jan; apr; jul], [jan; jul; apr], TDW_GARDNERKNOPOFF, (fl "100"),
      [1; 1; 0]%nat, [jan; jul], [0; 1; 0]%Z, [1; 1; 1]%nat, [jan], [0; 1; 1]%Z.
    split; [apply perm_skip, perm_swap|]. split; [exact af_in_order|]. split; [exact af_other_order|]. cbn [length]. congruence.
Qed.
