(** Debug of the remaining types (C88), and what it looks like (C89). *)
From Coq Require Import Bool Lia.
From Verif Require Import Base Types Ops ReadErr Groups Validate ControlFlow Glsl450 DebugBase Debug DebugMore Spec_Unicode Spec_Wire Spec_Names Spec_Opcodes Spec_Text Spec_Debug Proofs_Debug Proofs_Debug2.
From Verif Require Proofs_Flow.

#[local] Arguments dbg_Vec : simpl never.
#[local] Arguments dbg_Option : simpl never.
#[local] Arguments N.of_nat : simpl never.
#[local] Arguments dbg_OpId : simpl never.

#[export] Instance shown_BlockId {E} : Shown (dbg_BlockId (E := E)).
Proof. shown_with ltac:(fun a => unfold dbg_BlockId in *). Qed.
#[local] Arguments dbg_BlockId : simpl never.
Lemma chain_shown : forall {E} c, wf (dbg_ControlFlowChain (E := E) c) = true /\ forall d, dbg_ControlFlowChain (E := E) c = dbg_ControlFlowChain d -> c = d.
Proof.
  intros E. apply Proofs_Flow.chain_ind'; intros; (split; [cbn [dbg_ControlFlowChain wf forallb fst snd]|intros d D; destruct d; cbn [dbg_ControlFlowChain] in D; try discriminate D]).
  - rewrite shown_wf. reflexivity.
  - peel D. reflexivity.
  - unfold dbg_Vec. cbn [wf]. cbn. rewrite andb_true_r. apply forallb_forall. intros t T. apply in_map_iff in T. destruct T as (x & <- & X).
    rewrite Forall_forall in H. apply H. exact X.
  - apply tuple_inj, cons_inj in D. destruct D as [D _]. unfold dbg_Vec in D. apply list_inj in D. apply map_inj in D; [subst; reflexivity|].
    intros x y X. rewrite Forall_forall in H. apply H. exact X.
  - destruct H as [H _], H0 as [H0 _]. rewrite H, H0, ?shown_wf. reflexivity.
  - apply tuple_inj, cons_inj in D. destruct D as [D0 D]. apply cons_inj in D. destruct D as [D1 D]. apply cons_inj in D. destruct D as [D2 D].
    apply H in D1. apply H0 in D2. peel D0. peel D. subst. reflexivity.
  - destruct H as [H _]. rewrite H, ?shown_wf. reflexivity.
  - apply tuple_inj, cons_inj in D. destruct D as [D0 D]. apply cons_inj in D. destruct D as [D1 D].
    apply H in D1. peel D0. peel D. subst. reflexivity.
  - reflexivity.
  - reflexivity.
  - reflexivity.
  - reflexivity.
Qed.
#[export] Instance shown_ControlFlowChain {E} : Shown (dbg_ControlFlowChain (E := E)).
Proof. split; intros a; [|intros b]; apply chain_shown. Qed.

#[export] Instance shown_ControlType {E} : Shown (dbg_ControlType (E := E)).
Proof. shown_with ltac:(fun a => unfold dbg_ControlType in *). Qed.
#[local] Arguments dbg_ControlType : simpl never.
#[export] Instance shown_ControlFlowError {E} : Shown (dbg_ControlFlowError (E := E)).
Proof. shown_with ltac:(fun a => unfold dbg_ControlFlowError in *). Qed.
#[local] Arguments dbg_ControlFlowError : simpl never.
#[export] Instance shown_ValidationError {E} : Shown (dbg_ValidationError (E := E)).
Proof. shown_with ltac:(fun a => unfold dbg_ValidationError in *). Qed.
#[local] Arguments dbg_ValidationError : simpl never.
#[export] Instance shown_Sin {E} : Shown (dbg_Sin (E := E)).
Proof. shown_with ltac:(fun a => unfold dbg_Sin in *). Qed.
#[local] Arguments dbg_Sin : simpl never.
#[export] Instance shown_Cos {E} : Shown (dbg_Cos (E := E)).
Proof. shown_with ltac:(fun a => unfold dbg_Cos in *). Qed.
#[local] Arguments dbg_Cos : simpl never.
#[export] Instance shown_Inst {E} : Shown (dbg_Inst (E := E)).
Proof. shown_with ltac:(fun a => unfold dbg_Inst in *). Qed.
#[local] Arguments dbg_Inst : simpl never.

(** ** Instructions *)
Lemma leaves_number : forall {E} l, flat_map (leaves (E := E)) (map DNumber l) = many num l.
Proof. induction l as [|x l IH]; [reflexivity|]. cbn [map flat_map many]. rewrite IH. reflexivity. Qed.
Lemma leaves_id : forall {E} l, flat_map (leaves (E := E)) (map dbg_OpId l) = many num l.
Proof. induction l as [|x l IH]; [reflexivity|]. cbn [map flat_map many]. rewrite IH. reflexivity. Qed.
Lemma leaves_phi : forall {E} l, flat_map (leaves (E := E)) (map dbg_PhiArg l) = many (fun a => num (PhiArg_variable a) ++ num (PhiArg_parent a)) l.
Proof. induction l as [|x l IH]; [reflexivity|]. cbn [map flat_map many]. rewrite IH. reflexivity. Qed.
Lemma unnamed_many : forall k l, (k = Id \/ k = Number) -> unnamed [] (Some k) (many num l) = many num l.
Proof. intros k l K. induction l as [|x l IH]; [reflexivity|]. cbn [many flat_map num app unnamed]. fold (many num l). destruct K as [-> | ->]; rewrite IH; reflexivity. Qed.
Lemma unnamed_phi : forall l, let args := many (fun a => num (PhiArg_variable a) ++ num (PhiArg_parent a)) l in unnamed [] (Some Id) args = args.
Proof.
  intros l args. subst args. induction l as [|x l IH]; [reflexivity|]. set (f := fun a => num (PhiArg_variable a) ++ num (PhiArg_parent a)) in *.
  change (many f (x :: l)) with (OWord (PhiArg_variable x) :: OWord (PhiArg_parent x) :: many f l). cbn [unnamed]. rewrite IH. reflexivity.
Qed.

Lemma instruction_shown : forall {E} (i : Core E), canonical i -> exists name fields,
  opcode_name (opcode i) = Some name
  /\ dbg_Core i = DTuple name [match fields with [] => DName name | _ => DStruct name fields end]
  /\ map fst fields = field_names (opcode i)
  /\ flat_map (fun f => leaves (snd f)) fields = (let (ks, rest) := all_kinds (opcode i) in unnamed ks rest (operands i)).
Proof.
  intros E i C. destruct i as [x|x|x|x|x|x|x|x|x|x|x|x|x|x|x|x|x|x|x|x|x|x|x|x|x|x|x|x|x|x|x|x|x|x|x|x|x|x|x|x|x|x|x|x|x|x|x|x|x|x|x|x|x|x|x|x|x|x|x|x|x|x|x|x|x|x|x|x|x|x|x|x|x|x|x|x|x|x|x|x|x|x|x|x|x|x|x|x|x|x|x|x|x|x|x|x|x|x]; destruct x.
  all: try (eexists _, []; repeat split; reflexivity).
  all: eexists _, (_ :: _); split; [reflexivity|split; [reflexivity|split; [reflexivity|]]]; try reflexivity.
  all: repeat match goal with x : option _ |- _ => destruct x | x : MemoryAccess |- _ => destruct x | x : BranchWeights |- _ => destruct x
    | x : LoopControl |- _ => destruct x | x : SelectionControl |- _ => destruct x | x : FunctionControl |- _ => destruct x end; try reflexivity.
  all: repeat match goal with x : AddressingModel |- _ => destruct x | x : MemoryModel |- _ => destruct x | x : ExecutionModel |- _ => destruct x
    | x : ExecutionMode |- _ => destruct x | x : Capability |- _ => destruct x | x : StorageClass |- _ => destruct x
    | x : Signedness |- _ => destruct x | x : AccessQualifier |- _ => destruct x end; try reflexivity.
  all: try match goal with x : SourceLanguage, C : canonical _ |- _ =>
    destruct x; try reflexivity; cbn in C; destruct C as [_ C]; cbn; destruct (n <? 5)%N eqn:X; [apply N.ltb_lt in X; lia|reflexivity] end.
  all: try match goal with d : Dim, dp : DepthStatus, a : Arrayed, m : MS, p : SampledStatus, f : ImageFormat |- _ =>
    cbn [flat_map snd Ops.OpTypeImage_dim Ops.OpTypeImage_depth Ops.OpTypeImage_arrayed Ops.OpTypeImage_ms Ops.OpTypeImage_sampled Ops.OpTypeImage_format];
    replace (leaves (E := E) (dbg_Dim d)) with (@nil operand) by (destruct d; reflexivity);
    replace (leaves (E := E) (dbg_DepthStatus dp)) with (@nil operand) by (destruct dp; reflexivity);
    replace (leaves (E := E) (dbg_Arrayed a)) with (@nil operand) by (destruct a; reflexivity);
    replace (leaves (E := E) (dbg_MS m)) with (@nil operand) by (destruct m; reflexivity);
    replace (leaves (E := E) (dbg_SampledStatus p)) with (@nil operand) by (destruct p; reflexivity);
    replace (leaves (E := E) (dbg_ImageFormat f)) with (@nil operand) by (destruct f; reflexivity); reflexivity end.
  all: try match goal with x : Decoration |- _ => destruct x; try reflexivity;
    repeat match goal with x : BuiltIn |- _ => destruct x | x : FunctionParameterAttribute |- _ => destruct x | x : FpRoundingMode |- _ => destruct x
      | x : FpFastMathMode |- _ => destruct x | x : LinkageType |- _ => destruct x end; reflexivity end.
  all: unfold dbg_Vec; cbn; rewrite ?app_nil_r, ?leaves_number, ?leaves_id, ?leaves_phi, ?unnamed_many, ?unnamed_phi by tauto; try reflexivity.
Qed.

(** ** Values *)
Lemma shown_exact : forall {E A} (dbg : A -> dtree E) (S : Shown dbg) e ext, unambiguous ext ->
  forall a b, debug_text e ext (dbg a) = debug_text e ext (dbg b) <-> a = b.
Proof.
  intros E A dbg S e ext U a b. split; [|intros ->; reflexivity]. intros H. apply shown_inj. apply (tree_exact e ext U); [apply shown_wf|apply shown_wf|exact H].
Qed.
Lemma no_ext_unambiguous : unambiguous no_ext.
Proof. intros []. Qed.
Lemma glsl_unambiguous : forall e, unambiguous (fun i => debug_text e no_ext (dbg_Inst i)).
Proof.
  intros e x y r s H. destruct (tree_clear e no_ext no_ext_unambiguous _ _ _ _ (shown_wf x) (shown_wf y) (closed_paren r) (closed_paren s) H) as [K X]. clear H. rename K into H.
  apply shown_inj in H. injection X as ->. auto.
Qed.
Lemma string_exact : forall e s t, dbg_str e s = dbg_str e t <-> s = t.
Proof. intros e s t. split; [|intros ->; reflexivity]. intros H. apply (string_clear e s t "" ""). rewrite H. reflexivity. Qed.
