(** Proof of C152. *)
From Coq Require Import Ascii String List.
From Verif Require Import Base Ops BaseFacts CatUtil PyStr EqCatalog SourceModel Nrml World CatalogFilter Jobs Workflow Main FlowSpec FlowValid DocSpec.
Import ListNotations.
Local Open Scope res_scope.

Section DocProofs.
Context {AR : Ops}.
Variable str_float : T -> text.
Variable xml_ok : text -> bool.

Lemma attr_inv : forall name v a, set_attr xml_ok name v = Ok a -> exists x, v = Some x /\ a = [(name, x)].
Proof. intros name [x|] a H; cbn in H; [|discriminate H]. destruct (xml_ok x); [|discriminate H]. injection H as <-. eauto. Qed.

Lemma text_inv : forall v x, set_text xml_ok v = Ok x -> x = v.
Proof. intros [s|] x H; cbn in H; [|congruence]. destruct (xml_ok s); congruence. Qed.

Lemma leaf_inv : forall tag v e, leaf xml_ok tag v = Ok e -> e = Elem tag [] v [].
Proof. intros tag v e H. unfold leaf in H. apply bind_ok in H. destruct H as (x & X & H). apply text_inv in X. subst x. congruence. Qed.

Ltac step H x X := apply bind_ok in H; destruct H as (x & X & H).

Lemma source_inv : forall (s : area_source AR) e, area_source_elem str_float xml_ok s = Ok e -> is_source_element str_float s e.
Proof.
  intros s e H. unfold area_source_elem in H.
  step H a A. step H nm NM. step H te TE. step H b B. step H r R. step H d D. step H h HH. injection H as <-.
  apply attr_inv in A. destruct A as (i & I & ->). apply leaf_inv in NM. apply leaf_inv in TE. apply leaf_inv in HH. subst nm te h.
  unfold write_area_boundary in B. step B ba BA. step B pl PL. injection B as <-. apply attr_inv in BA. destruct BA as (srs & SRS & ->). apply leaf_inv in PL. subst pl.
  unfold write_rupture_rate_model in R. step R g G. step R r1 R1. step R r2 R2. step R r3 R3. injection R as <-. apply leaf_inv in R1, R2, R3. subst r1 r2 r3.
  unfold write_truncated_guten_richter in G. step G ga GA. step G g1 G1. step G g2 G2. step G g3 G3. step G g4 G4. injection G as <-.
  apply attr_inv in GA. destruct GA as (ty & TY & ->). apply leaf_inv in G1, G2, G3, G4. subst g1 g2 g3 g4.
  unfold write_rupture_depth_distrib in D. step D da DA. step D x X. step D d1 D1. injection D as <-. apply attr_inv in DA. destruct DA as (dty & DTY & ->).
  apply text_inv in X. apply leaf_inv in D1. subst x d1.
  exists i, srs, ty, dty. repeat (split; [assumption|]). reflexivity.
Qed.

Theorem C152_proof : forall (ss : list (area_source AR)) d, write_doc str_float xml_ok ss = Ok d -> is_document str_float ss d.
Proof.
  intros [|s0 rest] d H; unfold write_doc in H; [discriminate H|]. step H ra RA. step H ma MA. step H es ES. injection H as <-.
  apply attr_inv in RA. destruct RA as (n & N & ->). apply attr_inv in MA. destruct MA as (m & M & ->).
  exists s0, rest, n, m, es. split; [reflexivity|]. split; [exact N|]. split; [exact M|]. split; [|reflexivity].
  revert es ES. generalize (s0 :: rest). clear. intros l. induction l as [|s l IH]; intros es ES; cbn [mapM] in ES.
  - injection ES as <-. constructor.
  - step ES e E. step ES es' E'. injection ES as <-. constructor; [now apply source_inv|auto].
Qed.

(** ** The other way round *)
Hypothesis number_ok : forall vs, xml_ok (join [" "%char] (map str_float vs)) = true.

Lemma leaf_number : forall tag v, num_leaf str_float xml_ok tag v = Ok (Elem tag [] (Some (str_float v)) []).
Proof. intros tag v. unfold num_leaf, leaf, set_text. assert (X := number_ok [v]); cbn [map join] in X; rewrite X. reflexivity. Qed.

Lemma leaf_ok : forall tag v, (forall x, v = Some x -> xml_ok x = true) -> leaf xml_ok tag v = Ok (Elem tag [] v []).
Proof. intros tag [x|] H; unfold leaf, set_text; [rewrite (H x eq_refl)|]; reflexivity. Qed.

Lemma source_written : forall (s : area_source AR) e, is_source_element str_float s e ->
  (forall x, In x [as_name s; as_tect s; as_id s; ab_srs (as_boundary s); tg_type (rm_tgr (as_rate s)); dd_type (as_depth s)] ->
     forall v, x = Some v -> xml_ok v = true) -> area_source_elem str_float xml_ok s = Ok e.
Proof.
  intros s e (i & srs & ty & dty & I & S & TY & D & ->) OK.
  assert (O3 := OK _ (or_intror (or_intror (or_introl eq_refl))) i I).
  assert (O4 := OK _ (or_intror (or_intror (or_intror (or_introl eq_refl)))) srs S).
  assert (O5 := OK _ (or_intror (or_intror (or_intror (or_intror (or_introl eq_refl))))) ty TY).
  assert (O6 := OK _ (or_intror (or_intror (or_intror (or_intror (or_intror (or_introl eq_refl)))))) dty D).
  unfold area_source_elem. rewrite I. unfold set_attr at 1. rewrite O3. cbn [bind].
  rewrite (leaf_ok GML_NAME) by (apply OK; now left). cbn [bind].
  rewrite (leaf_ok TECTONIC_REGION) by (apply OK; right; now left). cbn [bind].
  unfold write_area_boundary. rewrite S. unfold set_attr at 1. rewrite O4. cbn [bind].
  rewrite (leaf_ok POS_LIST) by (intros x X; injection X as <-; apply number_ok). cbn [bind].
  unfold write_rupture_rate_model, write_truncated_guten_richter. rewrite TY. unfold set_attr at 1. rewrite O5. cbn [bind].
  rewrite !leaf_number. cbn [bind].
  unfold write_rupture_depth_distrib. rewrite D. unfold set_attr at 1. rewrite O6. cbn [bind]. unfold set_text at 1.
  change chr_space with " "%char. rewrite number_ok. cbn [bind].
  rewrite (leaf_ok DEPTH) by (intros x X; injection X as <-; apply number_ok). reflexivity.
Qed.

Theorem C152_written_proof : forall (ss : list (area_source AR)) d, is_document str_float ss d -> all_texts xml_ok ss ->
  write_doc str_float xml_ok ss = Ok d.
Proof.
  intros ss d (s0 & rest & n & m & es & E & N & M & F & ->) (H & A). assert (H' := fun x => H s0 rest x E).
  assert (ES : mapM (area_source_elem str_float xml_ok) ss = Ok es).
  { clear - F A number_ok. induction F as [|s e l es S F IH]; [reflexivity|]. cbn [mapM].
    rewrite (source_written s e S) by (apply A; now left). cbn [bind].
    rewrite IH by (intros s' I; apply A; now right). reflexivity. }
  unfold write_doc. rewrite E in *. rewrite N, M. unfold set_attr.
  rewrite (H' _ (or_introl eq_refl) n N), (H' _ (or_intror (or_introl eq_refl)) m M). cbn [bind]. rewrite ES. reflexivity.
Qed.

End DocProofs.

Theorem C152_result_proof : forall (AR : Ops) (W : world AR) (cf : config AR) f c', run_config W cf f = (c', None) ->
  exists p d ss, cf_result_file cf = Given p /\ cx_files c' p = Some (w_xml_print W d) /\ is_document (w_str_float W) ss d.
Proof.
  intros AR W cf f c' H. destruct (result_sources W cf f c' H) as (p & d & ss & ss' & RF & CF & _ & _ & WR).
  exists p, d, ss'. split; [exact RF|]. split; [exact CF|]. exact (C152_proof _ _ _ _ WR).
Qed.
