(** The GLSL.std.450 extended instruction set, src/glsl450/. *)
From Verif Require Import Base Types ReadErr ReadBase ExtSet DisplayBase.
Local Open Scope N_scope.

(* src/glsl450/op.rs:7-10 *)
Record Sin : Type := Build_Sin { Sin_x : OpId }.
(* src/glsl450/op.rs:24-27 *)
Record Cos : Type := Build_Cos { Cos_x : OpId }.

(* src/glsl450/mod.rs:15-19 *)
Inductive Inst : Type :=
| Inst_Sin (_ : Sin)
| Inst_Cos (_ : Cos).

(* src/glsl450/mod.rs:73-76 *)
Definition read_sin : Reader Inst := fun block =>
  let! (block, x) := read_op_id block in Ok (block, Inst_Sin {| Sin_x := x |}).
(* src/glsl450/mod.rs:78-81 *)
Definition read_cos : Reader Inst := fun block =>
  let! (block, x) := read_op_id block in Ok (block, Inst_Cos {| Cos_x := x |}).

(* src/glsl450/mod.rs:54-56 *)
Definition glsl450_name : string := "GLSL.std.450".

(* src/glsl450/mod.rs:57-67 *)
Definition glsl450_read_instruction : ExtReader Inst := fun instruction block =>
  let! (block, inst) :=
    match instruction with
    | 13 => read_sin block
    | 14 => read_cos block
    | _ => Err (UnknownExtInstOp glsl450_name instruction)
    end in
  Ok (block, inst).

(* src/glsl450/mod.rs:51-71; duplicate returns another InstSet *)
Definition InstSet : ExtInstSet Inst :=
  {| get_name := glsl450_name; duplicate := glsl450_read_instruction |}.

Local Open Scope string_scope.
(* src/glsl450/op.rs:18-22 *)
Definition disp_Sin (op : Sin) : string := "Sin " ++ disp_OpId (Sin_x op).
(* src/glsl450/op.rs:35-39 *)
Definition disp_Cos (op : Cos) : string := "Cos " ++ disp_OpId (Cos_x op).
(* src/glsl450/mod.rs:41-49 *)
Definition disp_Inst (i : Inst) : string :=
  match i with Inst_Sin op => disp_Sin op | Inst_Cos op => disp_Cos op end.

(** A reference to an Op (src/spv/mod.rs:17-20): what its methods return.  Debug is in Debug.v and DebugMore.v. *)
Record Op : Type := Build_Op { Op_get_name : string; Op_text : string }.
(* src/glsl450/op.rs:12-16 *)
Definition op_Sin (op : Sin) : Op := {| Op_get_name := "Sin"; Op_text := disp_Sin op |}.
(* src/glsl450/op.rs:29-33 *)
Definition op_Cos (op : Cos) : Op := {| Op_get_name := "Cos"; Op_text := disp_Cos op |}.
(* src/glsl450/mod.rs:22-27 *)
Definition get_op (i : Inst) : Op :=
  match i with Inst_Sin op => op_Sin op | Inst_Cos op => op_Cos op end.
