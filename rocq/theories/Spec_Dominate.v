(** What a chain says about the blocks an execution has to come through (C127).  Computed along the chain; [avoid] are blocks
    that must not be executed. *)
From Verif Require Import Base Types Groups ControlFlow Spec_Flow.

Definition is_normal (e : exit) : bool := match e with Normal => true | _ => false end.

Section Lists.
Context (ends : ControlFlowChain -> exit -> bool).
(** The elements can be executed in order, the last one that is executed ending with [e]. *)
Fixpoint in_order (l : list ControlFlowChain) (e : exit) : bool :=
  match l with
  | [] => is_normal e
  | c :: l => ends c Normal && in_order l e || negb (is_normal e) && ends c e
  end.
Context (arrives : ControlFlowChain -> bool).
(** One element is arrived in, after the ones before it. *)
Fixpoint arrives_list (l : list ControlFlowChain) : bool :=
  match l with
  | [] => false
  | c :: l => arrives c || ends c Normal && arrives_list l
  end.
Context (leaves : ControlFlowChain -> exit -> bool) (runs : ControlFlowChain -> exit -> bool).
(** One element is left, and then the ones after it. *)
Fixpoint leaves_list (l : list ControlFlowChain) (e : exit) : bool :=
  match l with
  | [] => false
  | c :: l => leaves c Normal && in_order l e || negb (is_normal e) && leaves c e || runs c Normal && leaves_list l e
  end.
End Lists.

(** The chain can be executed, ending with [e], without executing a block that is avoided. *)
Fixpoint ends (avoid : BlockId -> bool) (c : ControlFlowChain) (e : exit) : bool :=
  match c with
  | Atom id => is_normal e && negb (avoid id)
  | Block l => in_order (ends avoid) l e
  | Selection id lhs rhs _ _ => negb (avoid id) && (ends avoid lhs e || ends avoid rhs e)
  | Loop id inner _ _ => is_normal e && negb (avoid id) && ends avoid inner Broke
  | Break => match e with Broke => true | _ => false end
  | Continue => match e with Continued => true | _ => false end
  end.

(** The chain can be executed up to block [b], without executing a block that is avoided before. *)
Fixpoint arrives (avoid : BlockId -> bool) (b : BlockId) (c : ControlFlowChain) : bool :=
  match c with
  | Atom id => N.eqb id b
  | Block l => arrives_list (ends avoid) (arrives avoid b) l
  | Selection id lhs rhs _ _ => N.eqb id b || negb (avoid id) && (arrives avoid b lhs || arrives avoid b rhs)
  | Loop id inner _ _ => N.eqb id b || negb (avoid id) && arrives avoid b inner
  | Break | Continue => false
  end.

Definition nothing_avoided (id : BlockId) : bool := false.

(** The chain can be executed, ending with [e], such that from some execution of block [a] on no block is executed that is
    avoided. *)
Fixpoint leaves (avoid : BlockId -> bool) (a : BlockId) (c : ControlFlowChain) (e : exit) : bool :=
  match c with
  | Atom id => is_normal e && N.eqb id a && negb (avoid id)
  | Block l => leaves_list (ends avoid) (leaves avoid a) (ends nothing_avoided) l e
  | Selection id lhs rhs _ _ =>
      N.eqb id a && negb (avoid id) && (ends avoid lhs e || ends avoid rhs e) || leaves avoid a lhs e || leaves avoid a rhs e
  | Loop id inner _ _ => is_normal e &&
      (N.eqb id a && negb (avoid id) && ends avoid inner Broke || leaves avoid a inner Broke
       || (leaves avoid a inner Normal || leaves avoid a inner Continued) && negb (avoid id) && ends avoid inner Broke)
  | Break | Continue => false
  end.

(** Block [b] stands in the chain only in constructs that block [h] starts. *)
Fixpoint only_inside (h b : BlockId) (c : ControlFlowChain) : Prop :=
  match c with
  | Atom id => id <> b
  | Block l => fold_right (fun c rest => only_inside h b c /\ rest) True l
  | Selection id lhs rhs _ _ => id <> b /\ (id = h \/ only_inside h b lhs /\ only_inside h b rhs)
  | Loop id inner _ _ => id <> b /\ (id = h \/ only_inside h b inner)
  | Break | Continue => True
  end.
