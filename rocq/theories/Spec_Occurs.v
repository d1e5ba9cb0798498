(** How often a chain names a block (C116). *)
From Verif Require Import Base Types Groups ControlFlow Spec_Flow Spec_Standard.

(** The number of times that [chain] names block [v]. *)
Definition occurrences (chain : ControlFlowChain) (v : BlockId) : nat := count_occ (A := BlockId) N.eq_dec (chain_ids chain) v.

Section Occurs.
Context {E : Type} (f : FunctionDefinition E).
(** [v] is the merge block of a construct that is reached. *)
Definition merges_at (v : BlockId) : Prop := exists h, declares f h v /\ reachable f h.
(** Branch number [n] of block [u] goes to [v], and goes not back. *)
Definition comes_from (v u : BlockId) (n : nat) : Prop := branches f u n v /\ reachable f u /\ ~ dominates f v u.
(** No block but a merge block is come to by two branches. *)
Definition one_way : Prop := forall v u n u' n', ~ merges_at v -> comes_from v u n -> comes_from v u' n' -> u = u' /\ n = n'.
End Occurs.
