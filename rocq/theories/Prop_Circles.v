(** Property theorems about executions that go in circles, C129. *)
From Verif Require Import Base Types Ops Groups ControlFlow Spec_Flow Spec_Standard Spec_Dominate Spec_Circles Samples_Flow Samples_Circles Proofs_Circles.
Local Open Scope N_scope.

(** ** C129 *)
(** Which blocks can be executed again and again. *)
Theorem C129_circles : forall E (f : FunctionDefinition E) depth chain, find_control_flow depth f = Ok chain ->
  forall b, (exists t, circle f b t) <-> comes_around b chain = true.
Proof. intros E f depth chain R. exact (circle_iff f depth chain R). Qed.
Print Assumptions C129_circles.

(** Every circle goes through the header of a loop. *)
Theorem C129_headers : forall E (f : FunctionDefinition E) depth chain, find_control_flow depth f = Ok chain ->
  forall b t, circle f b t -> exists h, In h (loop_headers chain) /\ In h (map fst t).
Proof. intros E f depth chain R. exact (circle_header f depth chain R). Qed.
Print Assumptions C129_headers.

(** As long as no header of a loop is executed no block is executed twice; so a function without loops comes to an end. *)
Theorem C129_between_headers : forall E (f : FunctionDefinition E) depth chain, find_control_flow depth f = Ok chain ->
  forall b t d, reachable f b -> walk f b t d -> (forall h, In h (loop_headers chain) -> ~ In h (map fst t)) -> NoDup (map fst t).
Proof. intros E f depth chain R. exact (between_headers f depth chain R). Qed.
Print Assumptions C129_between_headers.

(** If the chain names every block once, the header of a loop dominates the circle: the function is reducible. *)
Theorem C129_reducible : forall E (f : FunctionDefinition E) depth chain, find_control_flow depth f = Ok chain -> NoDup (chain_ids chain) ->
  forall b t, circle f b t -> exists h, In h (loop_headers chain) /\ In h (map fst t) /\ forall x, In x (map fst t) -> dominates f h x.
Proof. intros E f depth chain R. exact (reducible f depth chain R). Qed.
Print Assumptions C129_reducible.

(** Without that a function can be understood that is not reducible: a loop can be entered besides its header. *)
Theorem C129_reducible_refuted : find_control_flow 9 entered_function = Ok entered_chain
  /\ circle entered_function 2 around /\ ~ (exists h, In h (map fst around) /\ forall x, In x (map fst around) -> dominates entered_function h x).
Proof. exact (conj entered_read entered_irreducible). Qed.
Print Assumptions C129_reducible_refuted.

(** In the sample loop the blocks that can be executed again are those of the loop; no block is named twice. *)
Example C129_example : find_control_flow 9 loop_function = Ok loop_chain
  /\ filter (fun b => comes_around b loop_chain) (chain_ids loop_chain) = [10; 11; 12; 15; 16; 13]
  /\ loop_headers loop_chain = [10] /\ NoDup (chain_ids loop_chain).
Proof. split; [vm_compute; reflexivity|]. split; [vm_compute; reflexivity|]. split; [reflexivity|]. cbn. repeat constructor; cbn; intuition discriminate. Qed.
