(** Display for RawModule, src/spv/raw/mod.rs:27-49. *)
From Verif Require Import Base Types Ops DisplayBase DisplayTypes DisplayOps.
Local Open Scope string_scope.

(* "\n" *)
(* e.g. src/spv/raw/mod.rs:29 *)
Definition nl : string := String (ascii_of_N 10) "".

(* src/spv/raw/mod.rs:31-38 *)
Definition generator_name (g : Generator) : string :=
  match Tool_get_vendor (Generator_tool g), Tool_get_tool (Generator_tool g) with
  | Some vendor, Some tool => vendor ++ " " ++ tool
  | Some vendor, None => vendor
  | None, Some tool => tool
  | None, None => "Unknown"
  end.

(* src/spv/raw/mod.rs:44-46 *)
Fixpoint disp_instructions {E} (disp_ext : E -> string) (l : list (Core E)) : string :=
  match l with
  | [] => ""
  | inst :: l => disp_Core disp_ext inst ++ nl ++ disp_instructions disp_ext l
  end.

(* src/spv/raw/mod.rs:27-49 *)
Definition disp_RawModule {E} (disp_ext : E -> string) (m : RawModule E) : string :=
  "; SPIR-V" ++ nl
  ++ "; Version: " ++ disp_u32 (Version_0 (RawModule_version m)) ++ "."
       ++ disp_u32 (Version_1 (RawModule_version m)) ++ nl
  ++ "; Generator: " ++ generator_name (RawModule_generator m) ++ "; "
       ++ disp_u32 (Generator_version (RawModule_generator m)) ++ nl
  ++ "; Bound: " ++ disp_u32 (RawModule_bound m) ++ nl
  ++ "; Schema: 0" ++ nl
  ++ disp_instructions disp_ext (RawModule_instructions m).
