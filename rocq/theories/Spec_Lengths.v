(** SPECIFICATION: how long the executions of a function are and how many there are, C131. *)
From Verif Require Import Base Types Groups ControlFlow Spec_Flow.

(** ** The most there can be *)
Inductive most : Type := Never | UpTo (n : nat) | NoLimit.
Definition most_or (a b : most) : most :=
  match a, b with
  | Never, x | x, Never => x
  | UpTo n, UpTo k => UpTo (Nat.max n k)
  | _, _ => NoLimit
  end.
Definition most_then (a b : most) : most :=
  match a, b with
  | Never, _ | _, Never => Never
  | UpTo n, UpTo k => UpTo (n + k)
  | _, _ => NoLimit
  end.
(** What it says about a set of numbers. *)
Definition at_most (S : nat -> Prop) (a : most) : Prop :=
  match a with
  | Never => forall k, ~ S k
  | UpTo n => S n /\ forall k, S k -> k <= n
  | NoLimit => forall n, exists k, S k /\ n <= k
  end.

(** ** The least there can be *)
Definition least_or (a b : option nat) : option nat :=
  match a, b with
  | None, x | x, None => x
  | Some n, Some k => Some (Nat.min n k)
  end.
Definition least_then (a b : option nat) : option nat :=
  match a, b with Some n, Some k => Some (n + k) | _, _ => None end.
Definition at_least (S : nat -> Prop) (a : option nat) : Prop :=
  match a with
  | None => forall k, ~ S k
  | Some n => S n /\ forall k, S k -> n <= k
  end.

(** ** How many there are *)
Inductive many : Type := Exactly (n : nat) | Infinite.
Definition many_or (a b : many) : many :=
  match a, b with Exactly n, Exactly k => Exactly (n + k) | _, _ => Infinite end.
Definition many_then (a b : many) : many :=
  match a, b with
  | Exactly 0, _ | _, Exactly 0 => Exactly 0
  | Exactly n, Exactly k => Exactly (n * k)
  | _, _ => Infinite
  end.
Definition so_many {A} (S : A -> Prop) (a : many) : Prop :=
  match a with
  | Exactly n => exists l, length l = n /\ NoDup l /\ forall x, S x <-> In x l
  | Infinite => forall n, exists l, length l = n /\ NoDup l /\ forall x, In x l -> S x
  end.

(** ** Along a chain, for the executions that end with [e] *)
Section Along.
Context {A : Type} (none empty step : A) (or_ then_ : A -> A -> A).
(** A loop that can start again, with the value for leaving its body. *)
Context (endless : A -> A) (possible : A -> bool).
Definition if_normal (e : exit) (a : A) : A := match e with Normal => a | _ => none end.
Section Lists.
Context (along : ControlFlowChain -> exit -> A).
Fixpoint along_list (l : list ControlFlowChain) (e : exit) : A :=
  match l with
  | [] => if_normal e empty
  | c :: l => or_ (then_ (along c Normal) (along_list l e)) (match e with Normal => none | _ => along c e end)
  end.
End Lists.
Fixpoint along (c : ControlFlowChain) (e : exit) : A :=
  match c with
  | Atom _ => if_normal e step
  | Block l => along_list along l e
  | Selection _ lhs rhs _ _ => then_ step (or_ (along lhs e) (along rhs e))
  | Loop _ inner _ _ =>
      if_normal e (if possible (along inner Normal) || possible (along inner Continued) then endless (along inner Broke) else then_ step (along inner Broke))
  | Break => match e with Broke => empty | _ => none end
  | Continue => match e with Continued => empty | _ => none end
  end.
End Along.

(** Most blocks that are executed. *)
Definition longest : ControlFlowChain -> exit -> most :=
  along Never (UpTo 0) (UpTo 1) most_or most_then (fun a => match a with Never => Never | _ => NoLimit end) (fun a => match a with Never => false | _ => true end).
(** Fewest blocks that are executed. *)
Definition shortest : ControlFlowChain -> exit -> option nat :=
  along None (Some 0) (Some 1) least_or least_then (least_then (Some 1)) (fun a => match a with None => false | _ => true end).
(** Number of executions. *)
Definition number : ControlFlowChain -> exit -> many :=
  along (Exactly 0) (Exactly 1) (Exactly 1) many_or many_then (fun a => match a with Exactly 0 => Exactly 0 | _ => Infinite end)
    (fun a => match a with Exactly 0 => false | _ => true end).

(** The lengths of the executions of a function that return. *)
Definition lengths {E} (f : FunctionDefinition E) (n : nat) : Prop := exists t, complete_run f t /\ length t = n.
