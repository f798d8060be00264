(** Proofs about region names in source models (C135) and stored entries (C136). *)
From Coq Require Import ZArith Reals Lra Lia List Bool String Ascii.
From Verif Require Import Base Ops RFacts PyStr Csv EqCatalog EqCatSpec SourceModel Nrml NrmlSchema Tectonic
  FaultSpec FaultProofs World CatalogFilter Jobs Workflow FlowSpec FlowZones ZoneSpec Libm Demo FlowDemo FlowWitness FlowCases EqCatWitness EqCatWitness ZoneCases.
Import ListNotations.

(** The region of an element of a source model, built from its text with all defaults. *)
Definition region_of_text (s : text) : res (region ROps) :=
  @create_tect_region_by_name ROps (string_of_list_ascii s) None None None.

Lemma C135_refuted_proof : exists e, tectonic_region e /\
  forall s, x_text e = Some s -> region_of_text s = Err ValueError.
Proof.
  exists (Elem TECTONIC_REGION [] (Some (t "Subduction IntraSlab")) []). split.
  - split; [reflexivity|]. split. { split; [constructor|constructor]. } split; [reflexivity|].
    exists (t "Subduction IntraSlab"). split; auto. simpl. tauto.
  - intros s H. injection H as <-. reflexivity.
Qed.

Lemma C135_partial_proof : forall e, tectonic_region e -> exists s, x_text e = Some s /\
  (In s [t "Active Shallow Crust"; t "Subduction Interface"; t "Volcanic"] -> exists r, region_of_text s = Ok r) /\
  (~ In s [t "Active Shallow Crust"; t "Subduction Interface"; t "Volcanic"] -> region_of_text s = Err ValueError).
Proof.
  intros e (_ & _ & _ & s & X & I). exists s. split; auto.
  assert (K : forall name rid mu ratio, In (name, (rid, mu, ratio)) region_table -> s = t name -> exists r, region_of_text s = Ok r).
  { intros name rid mu ratio T ->. destruct (C58_default_proof name rid mu ratio T) as (r & E & _). exists r. unfold region_of_text.
    unfold t. rewrite string_of_list_ascii_of_string. exact E. }
  assert (B : In ("Subduction Interface"%string, ("002"%string, 49%R, (125 / 10000000)%R)) region_table) by (simpl; tauto).
  assert (C : In ("Volcanic"%string, ("005"%string, 29%R, (125 / 10000000)%R)) region_table) by (simpl; tauto).
  assert (A : In ("Active Shallow Crust"%string, ("001"%string, 30%R, (125 / 10000000)%R)) region_table) by (simpl; tauto).
  split.
  - intros [E|[E|[E|[]]]].
    + exact (K _ _ _ _ A (eq_sym E)).
    + exact (K _ _ _ _ B (eq_sym E)).
    + exact (K _ _ _ _ C (eq_sym E)).
  - intros N. cbn [In TECTONIC_REGIONS] in I. destruct I as [<-|[<-|[<-|[<-|[<-|[]]]]]]; try reflexivity; exfalso; apply N; cbn [In]; tauto.
Qed.

(** ** Stored entries *)
Lemma C136_proof : forall (AR : Ops) (W : world AR), rearranges (w_dict_order W) ->
  forall content es, read_eq_catalog (w_parse_float W) (w_now_year W) (w_dict_order W) content = Ok es ->
  forall sel, incl sel es -> exists out, write_rows (w_repr_float W) sel = Ok out.
Proof.
  intros AR W R content es H sel I.
  set (cf := mkConfig (AR := AR) (Given []) Absent Absent Absent Absent Absent Absent Absent (Err KeyError) (Err KeyError) (Err KeyError) (Err KeyError) (Err KeyError)).
  apply (entries_writable W R cf (fun _ => Some content) es); auto.
  exists [], content. auto.
Qed.

Lemma C136_case_proof : rearranges (w_dict_order DW) /\
  read_eq_catalog (w_parse_float DW) (w_now_year DW) (w_dict_order DW) (ctext quakes) = Ok (entries_in (ctext quakes)) /\
  List.length (entries_in (ctext quakes)) = 14.
Proof.
  split; [exact cpython_rearranges|].
  split; [vm_cast_no_check (@eq_refl (res (list (entry FL))) (Ok (entries_in (ctext quakes))))|vm_cast_no_check (@eq_refl nat 14)].
Qed.
