(** Model of mtoolkit/catalog_filter.py. *)
From Coq Require Import ZArith Bool List.
From Verif Require Import Base Ops CatUtil PyStr SourceModel World.
Import ListNotations.
Local Open Scope res_scope.

Section CatalogFilter.
Context {AR : Ops}.
Variable W : world AR.

(** The two filters, catalog_filter.py:55-82,105-113. *)
Inductive sm_filter := SourceModelCatalogFilter | NullCatalogFilter.

(** SourceModelCatalogFilter.filter_eqs, catalog_filter.py:55-82, with _extract_polygon and
    _check_polygon (84-102). *)
Definition source_filter_eqs (s : area_source AR) (cat : list (event AR))
  : res (list (event AR)) :=
  let poly := ab_pos (as_boundary s) in
  let* _ := w_polygon W poly in
  Ok (filter (fun e => w_contains W poly (ev_lon e) (ev_lat e)) cat).

(** filter_eqs of either filter; NullCatalogFilter copies the catalogue, 105-113. *)
Definition filter_eqs (f : sm_filter) (s : area_source AR) (cat : list (event AR))
  : res (list (event AR)) :=
  match f with
  | SourceModelCatalogFilter => source_filter_eqs s cat
  | NullCatalogFilter => Ok cat
  end.

End CatalogFilter.
