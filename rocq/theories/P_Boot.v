(** Property C126: mean and deviation of the bootstrap of the cumulative moment. *)
From Coq Require Import String ZArith Arith Bool List Lia Reals Lra.
From Verif Require Import Base Ops BaseFacts RFacts MaxMag BootSpec BootProofs P_MaxMag.
Import ListNotations.
Local Open Scope R_scope.

(** C126.  The two numbers returned by the cumulative moment method are the mean and the sample
    standard deviation (divisor n - 1) of the estimates of the catalogues obtained by adding to each
    magnitude its uncertainty times the draw for that event, and of nothing else; the call succeeds
    exactly when each of these estimates does. *)
Theorem C126_bootstrap_statistics : forall (year mag sigma : list R) (normals : list (list R)) m s,
  length sigma = length mag -> (forall z, In z normals -> length z = length mag) -> (2 <= length normals)%nat ->
  (@cum_mo_uncertainty ROps year mag sigma normals = Ok (m, s) <->
   exists es, Forall2 (fun z e => exists out, disturbed mag sigma z out /\ @cumulative_moment ROps year out = Ok e) normals es /\
     mean_of es m /\ deviation_of es s).
Proof. exact C126_proof. Qed.
Print Assumptions C126_bootstrap_statistics.

(** Two draws, of which the second disturbs the second magnitude by 1/2. *)
Example C126_case : exists e1 e2,
  @cumulative_moment ROps (map IZR [2000; 2001; 2003]%Z) [5; 6; 5] = Ok e1 /\
  @cumulative_moment ROps (map IZR [2000; 2001; 2003]%Z) [5; 13 / 2; 5] = Ok e2 /\
  @cum_mo_uncertainty ROps (map IZR [2000; 2001; 2003]%Z) [5; 6; 5] [0; 1 / 4; 0] [[1; 0; 2]; [0; 2; -7]]
    = Ok ((e1 + e2) / 2, Rabs (e1 - e2) / sqrt 2).
Proof.
  destruct (C49_cumulative_moment [2000; 2001; 2003]%Z [5; 6; 5] 2000 2003) as (hi1 & lo1 & _ & _ & _ & E1); simpl; auto.
  { intros z [<-|[<-|[<-|[]]]]; lia. }
  destruct (C49_cumulative_moment [2000; 2001; 2003]%Z [5; 13 / 2; 5] 2000 2003) as (hi2 & lo2 & _ & _ & _ & E2); simpl; auto.
  { intros z [<-|[<-|[<-|[]]]]; lia. }
  do 2 eexists. split; [exact E1|]. split; [exact E2|].
  match type of E1 with _ = Ok ?v => set (e1 := v) in * end. match type of E2 with _ = Ok ?v => set (e2 := v) in * end.
  apply (C126_bootstrap_statistics (map IZR [2000; 2001; 2003]%Z) [5; 6; 5] [0; 1 / 4; 0] [[1; 0; 2]; [0; 2; -7]]); simpl; auto.
  { intros z [<-|[<-|[]]]; reflexivity. }
  exists [e1; e2]. split; [|split].
  - constructor; [|constructor; [|constructor]].
    + exists [5; 6; 5]. split; [|exact E1]. split; auto. intros [|[|[|i]]] H; simpl in *; lra || lia.
    + exists [5; 13 / 2; 5]. split; [|exact E2]. split; auto. intros [|[|[|i]]] H; simpl in *; lra || lia.
  - unfold mean_of. simpl. lra.
  - assert (P : 0 < sqrt 2) by (apply sqrt_lt_R0; lra).
    split. { apply Rmult_le_pos; [apply Rabs_pos|]. left. now apply Rinv_0_lt_compat. }
    exists ((e1 + e2) / 2). split; [unfold mean_of; simpl; lra|]. simpl.
    replace (Rabs (e1 - e2) / sqrt 2 * (Rabs (e1 - e2) / sqrt 2)) with (Rabs (e1 - e2) * Rabs (e1 - e2) / (sqrt 2 * sqrt 2)) by (field; lra).
    rewrite sqrt_sqrt by lra. rewrite <- Rabs_mult, Rabs_pos_eq by apply Rle_0_sqr. field.
Qed.
