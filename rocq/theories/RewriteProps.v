(** Properties of ways of writing the same configuration (C173). *)
From Coq Require Import String List ZArith Lra Lia.
From Verif Require Import Base InputModel MainModel ReadModel AppModel SchemaSpec DocSpec AppExampleProofs RewriteSpec RewriteProofs RewriteTypeProofs.
Import ListNotations.
Open Scope R_scope.

(** C173: writing the same thing in another way changes nothing: numbers as
    text or truth values, values in order instead of under keys, defaults
    written or left out at any depth, types that the keys tell. *)
Theorem C173_rewritten : forall co2 st header a b s p v w write compare, In (s, p) sections -> rewritten st p v w ->
  (forall data c r, run (app co2 st header (VDict (a ++ (s, v) :: b)) data write compare) None = Ret (c, Some r) <->
                    run (app co2 st header (VDict (a ++ (s, w) :: b)) data write compare) None = Ret (c, Some r)) /\
  (forall data t, run (app co2 st header (VDict (a ++ (s, v) :: b)) data write compare) (Some t) =
                  run (app co2 st header (VDict (a ++ (s, w) :: b)) data write compare) (Some t)).
Proof. exact rewritten_run. Qed.
Print Assumptions C173_rewritten.
Example C173_nonvacuous : forall st, float_of st "4e0" = Some 4 ->
  In ("minerals"%string, AtMinerals) sections /\
  rewritten st AtMinerals (pure 4 1 3)
    (VList [VList [VList [VDict [("density", VNum 3); ("bulk_modulus", VStr "4e0"); ("shear_modulus", VBool true);
                          ("primary_velocity", VNull); ("type", VStr "material")]]]])%string /\
  In ("pressure"%string, AtPressure) sections /\
  rewritten st AtPressure (VDict [("overburden", VNum 100); ("reference", VNum 0); ("fluid", VNum 0)])%string
    (VList [VNum 100; VBool false; VBool false]).
Proof.
  intros st H. split; [cbn; auto|]. split; [|split; [cbn; auto|]].
  - unfold pure, material_item. apply rewritten_back. eapply rewritten_twice.
    + apply (rewritten_positions st AtMinerals); [discriminate|cbn; lia].
    + cbn [positions combine]. apply (rewritten_key st AtMinerals ["constituents"]%string AtConstituents _ [] []); [cbn; auto|cbn; auto|].
      apply (rewritten_item st AtConstituents AtConstituent [] []); [reflexivity|].
      eapply rewritten_twice; [apply (rewritten_positions st AtConstituent); [discriminate|cbn; lia]|]. cbn [positions combine].
      apply (rewritten_key st AtConstituent ["material"]%string AtMaterial _ [] []); [cbn; auto|cbn; auto|].
      eapply rewritten_twice.
      { apply (rewritten_left_out st AtMaterial (Some "material"%string) "primary_velocity"%string VNull
          [("density", VNum 3); ("bulk_modulus", VStr "4e0"); ("shear_modulus", VBool true)]%string [("type", VStr "material")]%string).
        - cbn; auto 10.
        - cbn; intuition discriminate.
        - split; [|cbn; auto 10]. cbn. repeat constructor; cbn; intuition discriminate.
        - discriminate. }
      eapply rewritten_twice.
      { apply (rewritten_type st AtMaterial "density"%string "material"%string
          [("density", VNum 3); ("bulk_modulus", VStr "4e0"); ("shear_modulus", VBool true)]%string []).
        - cbn; auto.
        - cbn; auto.
        - cbn; intuition discriminate. }
      cbn [List.app]. eapply rewritten_twice.
      { apply (rewritten_key st AtMaterial elastic AtNumbers "bulk_modulus"%string [("density", VNum 3)]%string); [cbn; auto|cbn; auto|].
        apply rewritten_spelled, numbers_text; [cbn; auto|exact H]. }
      apply (rewritten_key st AtMaterial elastic AtNumbers "shear_modulus"%string [("density", VNum 3); ("bulk_modulus", VNum 4)]%string []); [cbn; auto|cbn; auto|].
      apply rewritten_spelled, (numbers_truth st AtNumbers true). cbn; auto.
  - apply rewritten_back. eapply rewritten_twice; [apply (rewritten_positions st AtPressure); [discriminate|cbn; lia]|]. cbn [positions combine].
    eapply rewritten_twice.
    + apply (rewritten_key st AtPressure ["overburden"; "reference"; "fluid"; "max_effective"; "rock"]%string AtNumbers "reference"%string [("overburden", VNum 100)]%string); [cbn; auto|cbn; auto|].
      apply rewritten_spelled, (numbers_truth st AtNumbers false). cbn; auto.
    + apply (rewritten_key st AtPressure ["overburden"; "reference"; "fluid"; "max_effective"; "rock"]%string AtNumbers "fluid"%string [("overburden", VNum 100); ("reference", VNum 0)]%string []); [cbn; auto|cbn; auto|].
      apply rewritten_spelled, (numbers_truth st AtNumbers false). cbn; auto.
Qed.
