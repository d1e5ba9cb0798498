(* GENERATED by tools/fixtures.py from /repo/src/tests. *)
(** The repository's own test modules run through the model (src/tests/mod.rs:110-156).
    These are tests of the model's fidelity, not proofs of properties: each module is read,
    printed (and compared with the expected text), validated and its control flow found. *)
From Verif Require Import Base Types Ops ReadErr ReadBase ExtSet ReadOps Reader Groups Validate
  DisplayBase DisplayTypes DisplayOps DisplayModule Glsl450 ControlFlow DisplayFlow.

(* bytes of a module given as little-endian words *)
Definition bytes_of_words (l : list N) : list ascii :=
  flat_map (fun w => map (fun k => ascii_of_N (N.modulo (N.shiftr w k) 256)) [0; 8; 16; 24]%N) l.

(* src/tests/mod.rs:8-11 *)
Definition read (data : list ascii) := read_module data [InstSet].

(* src/tests/mod.rs:121-129 *)
Definition disassemble_ok (data : list ascii) (expected : string) : bool :=
  match read data with Ok m => String.eqb (disp_RawModule disp_Inst m) expected | _ => false end.

(* src/tests/mod.rs:131-136 *)
Definition logical_pass_ok (data : list ascii) : bool :=
  match read data with
  | Ok m => match validate m with Ok _ => true | _ => false end
  | _ => false
  end.

(* src/tests/mod.rs:138-147 *)
Definition cfa_ok (data : list ascii) : bool :=
  match read data with
  | Ok m =>
      match validate m with
      | Ok l =>
          forallb (fun f =>
            let n := List.length (FunctionDefinition_blocks f) in
            match find_control_flow (n * (n + 2) + 1) f with
            | Ok c => match disp_ControlFlowFunctionPrinter disp_Inst f c with Ok _ => true | _ => false end
            | _ => false
            end) (LogicalModule_function_definitions l)
      | _ => false
      end
  | _ => false
  end.

(* src/tests/noop.spv *)
Definition noop_spv : list ascii := bytes_of_words [
  119734787; 65536; 524289; 10; 0; 131089; 1; 393227; 1; 1280527431;
  1685353262; 808793134; 0; 196622; 0; 1; 327695; 5; 4; 1852399981;
  0; 393232; 4; 17; 32; 32; 32; 196611; 2; 430;
  262149; 4; 1852399981; 0; 262215; 9; 11; 25; 131091; 2;
  196641; 3; 2; 262165; 6; 32; 0; 262167; 7; 6;
  3; 262187; 6; 8; 32; 393260; 7; 9; 8; 8;
  8; 327734; 2; 4; 0; 3; 131320; 5; 65789; 65592]%N.
(* src/tests/noop.dis *)
Definition noop_dis : string :=
"; SPIR-V
; Version: 1.0
; Generator: Khronos Glslang Reference Front End; 1
; Bound: 10
; Schema: 0
               OpCapability Shader
          %1 = OpExtInstImport ""GLSL.std.450""
               OpMemoryModel Logical GLSL450
               OpEntryPoint GLCompute %4 ""main""
               OpExecutionMode %4 LocalSize 32 32 32
               OpSource GLSL 430
               OpName %4 ""main""
               OpDecorate %9 BuiltIn WorkgroupSize
          %2 = OpTypeVoid
          %3 = OpTypeFunction %2
          %6 = OpTypeInt 32 0
          %7 = OpTypeVector %6 3
          %8 = OpConstant %6 32
          %9 = OpConstantComposite %7 %8 %8 %8
          %4 = OpFunction %2 None %3
          %5 = OpLabel
               OpReturn
               OpFunctionEnd
"%string.

Example noop_disassemble_ok : disassemble_ok noop_spv noop_dis = true.
Proof. vm_compute. reflexivity. Qed.
Example noop_logical_pass_ok : logical_pass_ok noop_spv = true.
Proof. vm_compute. reflexivity. Qed.
Example noop_cfa_ok : cfa_ok noop_spv = true.
Proof. vm_compute. reflexivity. Qed.

(* src/tests/write_multiply.spv *)
Definition write_multiply_spv : list ascii := bytes_of_words [
  119734787; 65536; 524289; 40; 0; 131089; 1; 393227; 1; 1280527431;
  1685353262; 808793134; 0; 196622; 0; 1; 393231; 5; 4; 1852399981;
  0; 12; 393232; 4; 17; 32; 32; 32; 196611; 2;
  430; 262149; 4; 1852399981; 0; 327685; 8; 1953067639; 1635147621; 6649196;
  524293; 12; 1197436007; 1633841004; 1986939244; 1952539503; 1231974249; 68; 327685; 23;
  1967290701; 1919247974; 0; 327686; 23; 0; 1970037110; 101; 196613; 25;
  0; 262149; 37; 1668246594; 107; 327686; 37; 0; 1970037110; 101;
  262149; 39; 1953719668; 0; 262215; 12; 11; 28; 262215; 22;
  6; 4; 327752; 23; 0; 35; 0; 196679; 23; 3;
  262215; 25; 34; 0; 262215; 25; 33; 2; 262215; 35;
  11; 25; 327752; 37; 0; 35; 0; 196679; 37; 3;
  262215; 39; 34; 0; 131091; 2; 196641; 3; 2; 196630;
  6; 32; 262176; 7; 7; 6; 262165; 9; 32; 0;
  262167; 10; 9; 3; 262176; 11; 1; 10; 262203; 11;
  12; 1; 262187; 9; 13; 1; 262176; 14; 1; 9;
  262187; 9; 17; 2; 196637; 22; 6; 196638; 23; 22;
  262176; 24; 2; 23; 262203; 24; 25; 2; 262165; 26;
  32; 1; 262187; 26; 27; 0; 262187; 9; 28; 0;
  262176; 32; 2; 6; 262187; 9; 34; 32; 393260; 10;
  35; 34; 34; 34; 262167; 36; 6; 3; 196638; 37;
  36; 262176; 38; 2; 37; 262203; 38; 39; 2; 327734;
  2; 4; 0; 3; 131320; 5; 262203; 7; 8; 7;
  327745; 14; 15; 12; 13; 262205; 9; 16; 15; 327745;
  14; 18; 12; 17; 262205; 9; 19; 18; 327812; 9;
  20; 16; 19; 262256; 6; 21; 20; 196670; 8; 21;
  327745; 14; 29; 12; 28; 262205; 9; 30; 29; 262205;
  6; 31; 8; 393281; 32; 33; 25; 27; 30; 196670;
  33; 31; 65789; 65592]%N.
(* src/tests/write_multiply.dis *)
Definition write_multiply_dis : string :=
"; SPIR-V
; Version: 1.0
; Generator: Khronos Glslang Reference Front End; 1
; Bound: 40
; Schema: 0
               OpCapability Shader
          %1 = OpExtInstImport ""GLSL.std.450""
               OpMemoryModel Logical GLSL450
               OpEntryPoint GLCompute %4 ""main"" %12
               OpExecutionMode %4 LocalSize 32 32 32
               OpSource GLSL 430
               OpName %4 ""main""
               OpName %8 ""write_value""
               OpName %12 ""gl_GlobalInvocationID""
               OpName %23 ""MyBuffer""
               OpMemberName %23 0 ""value""
               OpName %25 """"
               OpName %37 ""Block""
               OpMemberName %37 0 ""value""
               OpName %39 ""test""
               OpDecorate %12 BuiltIn GlobalInvocationId
               OpDecorate %22 ArrayStride 4
               OpMemberDecorate %23 0 Offset 0
               OpDecorate %23 BufferBlock
               OpDecorate %25 DescriptorSet 0
               OpDecorate %25 Binding 2
               OpDecorate %35 BuiltIn WorkgroupSize
               OpMemberDecorate %37 0 Offset 0
               OpDecorate %37 BufferBlock
               OpDecorate %39 DescriptorSet 0
          %2 = OpTypeVoid
          %3 = OpTypeFunction %2
          %6 = OpTypeFloat 32
          %7 = OpTypePointer Function %6
          %9 = OpTypeInt 32 0
         %10 = OpTypeVector %9 3
         %11 = OpTypePointer Input %10
         %12 = OpVariable %11 Input
         %13 = OpConstant %9 1
         %14 = OpTypePointer Input %9
         %17 = OpConstant %9 2
         %22 = OpTypeRuntimeArray %6
         %23 = OpTypeStruct %22
         %24 = OpTypePointer Uniform %23
         %25 = OpVariable %24 Uniform
         %26 = OpTypeInt 32 1
         %27 = OpConstant %26 0
         %28 = OpConstant %9 0
         %32 = OpTypePointer Uniform %6
         %34 = OpConstant %9 32
         %35 = OpConstantComposite %10 %34 %34 %34
         %36 = OpTypeVector %6 3
         %37 = OpTypeStruct %36
         %38 = OpTypePointer Uniform %37
         %39 = OpVariable %38 Uniform
          %4 = OpFunction %2 None %3
          %5 = OpLabel
          %8 = OpVariable %7 Function
         %15 = OpAccessChain %14 %12 %13
         %16 = OpLoad %9 %15
         %18 = OpAccessChain %14 %12 %17
         %19 = OpLoad %9 %18
         %20 = OpIMul %9 %16 %19
         %21 = OpConvertUToF %6 %20
               OpStore %8 %21
         %29 = OpAccessChain %14 %12 %28
         %30 = OpLoad %9 %29
         %31 = OpLoad %6 %8
         %33 = OpAccessChain %32 %25 %27 %30
               OpStore %33 %31
               OpReturn
               OpFunctionEnd
"%string.

Example write_multiply_disassemble_ok : disassemble_ok write_multiply_spv write_multiply_dis = true.
Proof. vm_compute. reflexivity. Qed.
Example write_multiply_logical_pass_ok : logical_pass_ok write_multiply_spv = true.
Proof. vm_compute. reflexivity. Qed.
Example write_multiply_cfa_ok : cfa_ok write_multiply_spv = true.
Proof. vm_compute. reflexivity. Qed.

(* src/tests/cond_trig.spv *)
Definition cond_trig_spv : list ascii := bytes_of_words [
  119734787; 65536; 524289; 50; 0; 131089; 1; 393227; 1; 1280527431;
  1685353262; 808793134; 0; 196622; 0; 1; 393231; 5; 4; 1852399981;
  0; 9; 393232; 4; 17; 32; 32; 32; 196611; 2;
  430; 262149; 4; 1852399981; 0; 524293; 9; 1197436007; 1633841004; 1986939244;
  1952539503; 1231974249; 68; 327685; 23; 1953067639; 1635147621; 6649196; 327685; 34;
  1967290701; 1919247974; 0; 327686; 34; 0; 1970037110; 101; 196613; 36;
  0; 262149; 47; 1668246594; 107; 327686; 47; 0; 1970037110; 101;
  262149; 49; 1953719668; 0; 262215; 9; 11; 28; 262215; 33;
  6; 4; 327752; 34; 0; 35; 0; 196679; 34; 3;
  262215; 36; 34; 0; 262215; 36; 33; 2; 262215; 45;
  11; 25; 327752; 47; 0; 35; 0; 196679; 47; 3;
  262215; 49; 34; 0; 131091; 2; 196641; 3; 2; 262165;
  6; 32; 0; 262167; 7; 6; 3; 262176; 8; 1;
  7; 262203; 8; 9; 1; 262187; 6; 10; 1; 262176;
  11; 1; 6; 262187; 6; 14; 2; 262187; 6; 16;
  0; 131092; 17; 196630; 21; 32; 262176; 22; 7; 21;
  196637; 33; 21; 196638; 34; 33; 262176; 35; 2; 34;
  262203; 35; 36; 2; 262165; 37; 32; 1; 262187; 37;
  38; 0; 262176; 42; 2; 21; 262187; 6; 44; 32;
  393260; 7; 45; 44; 44; 44; 262167; 46; 21; 3;
  196638; 47; 46; 262176; 48; 2; 47; 262203; 48; 49;
  2; 327734; 2; 4; 0; 3; 131320; 5; 262203; 22;
  23; 7; 327745; 11; 12; 9; 10; 262205; 6; 13;
  12; 327817; 6; 15; 13; 14; 327850; 17; 18; 15;
  16; 196855; 20; 0; 262394; 18; 19; 28; 131320; 19;
  327745; 11; 24; 9; 14; 262205; 6; 25; 24; 262256;
  21; 26; 25; 393228; 21; 27; 1; 13; 26; 196670;
  23; 27; 131321; 20; 131320; 28; 327745; 11; 29; 9;
  14; 262205; 6; 30; 29; 262256; 21; 31; 30; 393228;
  21; 32; 1; 14; 31; 196670; 23; 32; 131321; 20;
  131320; 20; 327745; 11; 39; 9; 16; 262205; 6; 40;
  39; 262205; 21; 41; 23; 393281; 42; 43; 36; 38;
  40; 196670; 43; 41; 65789; 65592]%N.
(* src/tests/cond_trig.dis *)
Definition cond_trig_dis : string :=
"; SPIR-V
; Version: 1.0
; Generator: Khronos Glslang Reference Front End; 1
; Bound: 50
; Schema: 0
               OpCapability Shader
          %1 = OpExtInstImport ""GLSL.std.450""
               OpMemoryModel Logical GLSL450
               OpEntryPoint GLCompute %4 ""main"" %9
               OpExecutionMode %4 LocalSize 32 32 32
               OpSource GLSL 430
               OpName %4 ""main""
               OpName %9 ""gl_GlobalInvocationID""
               OpName %23 ""write_value""
               OpName %34 ""MyBuffer""
               OpMemberName %34 0 ""value""
               OpName %36 """"
               OpName %47 ""Block""
               OpMemberName %47 0 ""value""
               OpName %49 ""test""
               OpDecorate %9 BuiltIn GlobalInvocationId
               OpDecorate %33 ArrayStride 4
               OpMemberDecorate %34 0 Offset 0
               OpDecorate %34 BufferBlock
               OpDecorate %36 DescriptorSet 0
               OpDecorate %36 Binding 2
               OpDecorate %45 BuiltIn WorkgroupSize
               OpMemberDecorate %47 0 Offset 0
               OpDecorate %47 BufferBlock
               OpDecorate %49 DescriptorSet 0
          %2 = OpTypeVoid
          %3 = OpTypeFunction %2
          %6 = OpTypeInt 32 0
          %7 = OpTypeVector %6 3
          %8 = OpTypePointer Input %7
          %9 = OpVariable %8 Input
         %10 = OpConstant %6 1
         %11 = OpTypePointer Input %6
         %14 = OpConstant %6 2
         %16 = OpConstant %6 0
         %17 = OpTypeBool
         %21 = OpTypeFloat 32
         %22 = OpTypePointer Function %21
         %33 = OpTypeRuntimeArray %21
         %34 = OpTypeStruct %33
         %35 = OpTypePointer Uniform %34
         %36 = OpVariable %35 Uniform
         %37 = OpTypeInt 32 1
         %38 = OpConstant %37 0
         %42 = OpTypePointer Uniform %21
         %44 = OpConstant %6 32
         %45 = OpConstantComposite %7 %44 %44 %44
         %46 = OpTypeVector %21 3
         %47 = OpTypeStruct %46
         %48 = OpTypePointer Uniform %47
         %49 = OpVariable %48 Uniform
          %4 = OpFunction %2 None %3
          %5 = OpLabel
         %23 = OpVariable %22 Function
         %12 = OpAccessChain %11 %9 %10
         %13 = OpLoad %6 %12
         %15 = OpUMod %6 %13 %14
         %18 = OpIEqual %17 %15 %16
               OpSelectionMerge %20 None
               OpBranchConditional %18 %19 %28
         %19 = OpLabel
         %24 = OpAccessChain %11 %9 %14
         %25 = OpLoad %6 %24
         %26 = OpConvertUToF %21 %25
         %27 = OpExtInst %21 %1 Sin %26
               OpStore %23 %27
               OpBranch %20
         %28 = OpLabel
         %29 = OpAccessChain %11 %9 %14
         %30 = OpLoad %6 %29
         %31 = OpConvertUToF %21 %30
         %32 = OpExtInst %21 %1 Cos %31
               OpStore %23 %32
               OpBranch %20
         %20 = OpLabel
         %39 = OpAccessChain %11 %9 %16
         %40 = OpLoad %6 %39
         %41 = OpLoad %21 %23
         %43 = OpAccessChain %42 %36 %38 %40
               OpStore %43 %41
               OpReturn
               OpFunctionEnd
"%string.

Example cond_trig_disassemble_ok : disassemble_ok cond_trig_spv cond_trig_dis = true.
Proof. vm_compute. reflexivity. Qed.
Example cond_trig_logical_pass_ok : logical_pass_ok cond_trig_spv = true.
Proof. vm_compute. reflexivity. Qed.
Example cond_trig_cfa_ok : cfa_ok cond_trig_spv = true.
Proof. vm_compute. reflexivity. Qed.

(* src/tests/nest_if.spv *)
Definition nest_if_spv : list ascii := bytes_of_words [
  119734787; 65536; 524289; 76; 0; 131089; 1; 393227; 1; 1280527431;
  1685353262; 808793134; 0; 196622; 0; 1; 393231; 5; 4; 1852399981;
  0; 9; 393232; 4; 17; 32; 32; 32; 196611; 2;
  430; 262149; 4; 1852399981; 0; 524293; 9; 1197436007; 1633841004; 1986939244;
  1952539503; 1231974249; 68; 327685; 23; 1953067639; 1635147621; 6649196; 327685; 61;
  1967290701; 1919247974; 0; 327686; 61; 0; 1970037110; 101; 196613; 63;
  0; 262149; 73; 1668246594; 107; 327686; 73; 0; 1970037110; 101;
  262149; 75; 1953719668; 0; 262215; 9; 11; 28; 262215; 60;
  6; 4; 327752; 61; 0; 35; 0; 196679; 61; 3;
  262215; 63; 34; 0; 262215; 63; 33; 2; 262215; 70;
  11; 25; 327752; 73; 0; 35; 0; 196679; 73; 3;
  262215; 75; 34; 0; 131091; 2; 196641; 3; 2; 262165;
  6; 32; 0; 262167; 7; 6; 3; 262176; 8; 1;
  7; 262203; 8; 9; 1; 262187; 6; 10; 1; 262176;
  11; 1; 6; 262187; 6; 14; 2; 262187; 6; 16;
  0; 131092; 17; 262165; 21; 32; 1; 262176; 22; 7;
  21; 262187; 21; 27; 128; 262187; 21; 30; 0; 262187;
  21; 34; 1; 262187; 21; 37; 2; 196637; 60; 21;
  196638; 61; 60; 262176; 62; 2; 61; 262203; 62; 63;
  2; 262176; 67; 2; 21; 262187; 6; 69; 32; 393260;
  7; 70; 69; 69; 69; 196630; 71; 32; 262167; 72;
  71; 3; 196638; 73; 72; 262176; 74; 2; 73; 262203;
  74; 75; 2; 327734; 2; 4; 0; 3; 131320; 5;
  262203; 22; 23; 7; 327745; 11; 12; 9; 10; 262205;
  6; 13; 12; 327817; 6; 15; 13; 14; 327850; 17;
  18; 15; 16; 196855; 20; 0; 262394; 18; 19; 40;
  131320; 19; 327745; 11; 24; 9; 10; 262205; 6; 25;
  24; 262268; 21; 26; 25; 327810; 21; 28; 26; 27;
  196670; 23; 28; 262205; 21; 29; 23; 327853; 17; 31;
  29; 30; 196855; 33; 0; 262394; 31; 32; 33; 131320;
  32; 262205; 21; 35; 23; 327808; 21; 36; 35; 34;
  196670; 23; 36; 131321; 33; 131320; 33; 262205; 21; 38;
  23; 327815; 21; 39; 38; 37; 196670; 23; 39; 131321;
  20; 131320; 40; 327745; 11; 41; 9; 14; 262205; 6;
  42; 41; 262268; 21; 43; 42; 327810; 21; 44; 43;
  27; 196670; 23; 44; 262205; 21; 45; 23; 327853; 17;
  46; 45; 30; 196855; 48; 0; 262394; 46; 47; 51;
  131320; 47; 262205; 21; 49; 23; 327808; 21; 50; 49;
  34; 196670; 23; 50; 131321; 48; 131320; 51; 262205; 21;
  52; 23; 327810; 21; 53; 52; 34; 196670; 23; 53;
  131321; 48; 131320; 48; 131321; 20; 131320; 20; 262205; 21;
  54; 23; 327853; 17; 55; 54; 30; 196855; 57; 0;
  262394; 55; 56; 57; 131320; 56; 262205; 21; 58; 23;
  327812; 21; 59; 58; 37; 196670; 23; 59; 131321; 57;
  131320; 57; 327745; 11; 64; 9; 16; 262205; 6; 65;
  64; 262205; 21; 66; 23; 393281; 67; 68; 63; 30;
  65; 196670; 68; 66; 65789; 65592]%N.
(* src/tests/nest_if.dis *)
Definition nest_if_dis : string :=
"; SPIR-V
; Version: 1.0
; Generator: Khronos Glslang Reference Front End; 1
; Bound: 76
; Schema: 0
               OpCapability Shader
          %1 = OpExtInstImport ""GLSL.std.450""
               OpMemoryModel Logical GLSL450
               OpEntryPoint GLCompute %4 ""main"" %9
               OpExecutionMode %4 LocalSize 32 32 32
               OpSource GLSL 430
               OpName %4 ""main""
               OpName %9 ""gl_GlobalInvocationID""
               OpName %23 ""write_value""
               OpName %61 ""MyBuffer""
               OpMemberName %61 0 ""value""
               OpName %63 """"
               OpName %73 ""Block""
               OpMemberName %73 0 ""value""
               OpName %75 ""test""
               OpDecorate %9 BuiltIn GlobalInvocationId
               OpDecorate %60 ArrayStride 4
               OpMemberDecorate %61 0 Offset 0
               OpDecorate %61 BufferBlock
               OpDecorate %63 DescriptorSet 0
               OpDecorate %63 Binding 2
               OpDecorate %70 BuiltIn WorkgroupSize
               OpMemberDecorate %73 0 Offset 0
               OpDecorate %73 BufferBlock
               OpDecorate %75 DescriptorSet 0
          %2 = OpTypeVoid
          %3 = OpTypeFunction %2
          %6 = OpTypeInt 32 0
          %7 = OpTypeVector %6 3
          %8 = OpTypePointer Input %7
          %9 = OpVariable %8 Input
         %10 = OpConstant %6 1
         %11 = OpTypePointer Input %6
         %14 = OpConstant %6 2
         %16 = OpConstant %6 0
         %17 = OpTypeBool
         %21 = OpTypeInt 32 1
         %22 = OpTypePointer Function %21
         %27 = OpConstant %21 128
         %30 = OpConstant %21 0
         %34 = OpConstant %21 1
         %37 = OpConstant %21 2
         %60 = OpTypeRuntimeArray %21
         %61 = OpTypeStruct %60
         %62 = OpTypePointer Uniform %61
         %63 = OpVariable %62 Uniform
         %67 = OpTypePointer Uniform %21
         %69 = OpConstant %6 32
         %70 = OpConstantComposite %7 %69 %69 %69
         %71 = OpTypeFloat 32
         %72 = OpTypeVector %71 3
         %73 = OpTypeStruct %72
         %74 = OpTypePointer Uniform %73
         %75 = OpVariable %74 Uniform
          %4 = OpFunction %2 None %3
          %5 = OpLabel
         %23 = OpVariable %22 Function
         %12 = OpAccessChain %11 %9 %10
         %13 = OpLoad %6 %12
         %15 = OpUMod %6 %13 %14
         %18 = OpIEqual %17 %15 %16
               OpSelectionMerge %20 None
               OpBranchConditional %18 %19 %40
         %19 = OpLabel
         %24 = OpAccessChain %11 %9 %10
         %25 = OpLoad %6 %24
         %26 = OpBitcast %21 %25
         %28 = OpISub %21 %26 %27
               OpStore %23 %28
         %29 = OpLoad %21 %23
         %31 = OpSGreaterThan %17 %29 %30
               OpSelectionMerge %33 None
               OpBranchConditional %31 %32 %33
         %32 = OpLabel
         %35 = OpLoad %21 %23
         %36 = OpIAdd %21 %35 %34
               OpStore %23 %36
               OpBranch %33
         %33 = OpLabel
         %38 = OpLoad %21 %23
         %39 = OpSDiv %21 %38 %37
               OpStore %23 %39
               OpBranch %20
         %40 = OpLabel
         %41 = OpAccessChain %11 %9 %14
         %42 = OpLoad %6 %41
         %43 = OpBitcast %21 %42
         %44 = OpISub %21 %43 %27
               OpStore %23 %44
         %45 = OpLoad %21 %23
         %46 = OpSGreaterThan %17 %45 %30
               OpSelectionMerge %48 None
               OpBranchConditional %46 %47 %51
         %47 = OpLabel
         %49 = OpLoad %21 %23
         %50 = OpIAdd %21 %49 %34
               OpStore %23 %50
               OpBranch %48
         %51 = OpLabel
         %52 = OpLoad %21 %23
         %53 = OpISub %21 %52 %34
               OpStore %23 %53
               OpBranch %48
         %48 = OpLabel
               OpBranch %20
         %20 = OpLabel
         %54 = OpLoad %21 %23
         %55 = OpSGreaterThan %17 %54 %30
               OpSelectionMerge %57 None
               OpBranchConditional %55 %56 %57
         %56 = OpLabel
         %58 = OpLoad %21 %23
         %59 = OpIMul %21 %58 %37
               OpStore %23 %59
               OpBranch %57
         %57 = OpLabel
         %64 = OpAccessChain %11 %9 %16
         %65 = OpLoad %6 %64
         %66 = OpLoad %21 %23
         %68 = OpAccessChain %67 %63 %30 %65
               OpStore %68 %66
               OpReturn
               OpFunctionEnd
"%string.

Example nest_if_disassemble_ok : disassemble_ok nest_if_spv nest_if_dis = true.
Proof. vm_compute. reflexivity. Qed.
Example nest_if_logical_pass_ok : logical_pass_ok nest_if_spv = true.
Proof. vm_compute. reflexivity. Qed.
Example nest_if_cfa_ok : cfa_ok nest_if_spv = true.
Proof. vm_compute. reflexivity. Qed.

(* src/tests/loop_simple.spv *)
Definition loop_simple_spv : list ascii := bytes_of_words [
  119734787; 65536; 524289; 52; 0; 131089; 1; 393227; 1; 1280527431;
  1685353262; 808793134; 0; 196622; 0; 1; 393231; 5; 4; 1852399981;
  0; 20; 393232; 4; 17; 32; 32; 32; 196611; 2;
  430; 262149; 4; 1852399981; 0; 327685; 8; 1953067639; 1635147621; 6649196;
  196613; 10; 105; 524293; 20; 1197436007; 1633841004; 1986939244; 1952539503; 1231974249;
  68; 327685; 36; 1967290701; 1919247974; 0; 327686; 36; 0; 1970037110;
  101; 196613; 38; 0; 262149; 49; 1668246594; 107; 327686; 49;
  0; 1970037110; 101; 262149; 51; 1953719668; 0; 262215; 20; 11;
  28; 262215; 35; 6; 4; 327752; 36; 0; 35; 0;
  196679; 36; 3; 262215; 38; 34; 0; 262215; 38; 33;
  2; 262215; 46; 11; 25; 327752; 49; 0; 35; 0;
  196679; 49; 3; 262215; 51; 34; 0; 131091; 2; 196641;
  3; 2; 262165; 6; 32; 0; 262176; 7; 7; 6;
  262187; 6; 9; 1; 262187; 6; 11; 0; 262167; 18;
  6; 3; 262176; 19; 1; 18; 262203; 19; 20; 1;
  262176; 21; 1; 6; 131092; 24; 262187; 6; 26; 2;
  262165; 32; 32; 1; 262187; 32; 33; 1; 196637; 35;
  6; 196638; 36; 35; 262176; 37; 2; 36; 262203; 37;
  38; 2; 262187; 32; 39; 0; 262176; 43; 2; 6;
  262187; 6; 45; 32; 393260; 18; 46; 45; 45; 45;
  196630; 47; 32; 262167; 48; 47; 3; 196638; 49; 48;
  262176; 50; 2; 49; 262203; 50; 51; 2; 327734; 2;
  4; 0; 3; 131320; 5; 262203; 7; 8; 7; 262203;
  7; 10; 7; 196670; 8; 9; 196670; 10; 11; 131321;
  12; 131320; 12; 262390; 14; 15; 0; 131321; 16; 131320;
  16; 262205; 6; 17; 10; 327745; 21; 22; 20; 9;
  262205; 6; 23; 22; 327856; 24; 25; 17; 23; 262394;
  25; 13; 14; 131320; 13; 327745; 21; 27; 20; 26;
  262205; 6; 28; 27; 262205; 6; 29; 8; 327812; 6;
  30; 29; 28; 196670; 8; 30; 131321; 15; 131320; 15;
  262205; 6; 31; 10; 327808; 6; 34; 31; 33; 196670;
  10; 34; 131321; 12; 131320; 14; 327745; 21; 40; 20;
  11; 262205; 6; 41; 40; 262205; 6; 42; 8; 393281;
  43; 44; 38; 39; 41; 196670; 44; 42; 65789; 65592]%N.
(* src/tests/loop_simple.dis *)
Definition loop_simple_dis : string :=
"; SPIR-V
; Version: 1.0
; Generator: Khronos Glslang Reference Front End; 1
; Bound: 52
; Schema: 0
               OpCapability Shader
          %1 = OpExtInstImport ""GLSL.std.450""
               OpMemoryModel Logical GLSL450
               OpEntryPoint GLCompute %4 ""main"" %20
               OpExecutionMode %4 LocalSize 32 32 32
               OpSource GLSL 430
               OpName %4 ""main""
               OpName %8 ""write_value""
               OpName %10 ""i""
               OpName %20 ""gl_GlobalInvocationID""
               OpName %36 ""MyBuffer""
               OpMemberName %36 0 ""value""
               OpName %38 """"
               OpName %49 ""Block""
               OpMemberName %49 0 ""value""
               OpName %51 ""test""
               OpDecorate %20 BuiltIn GlobalInvocationId
               OpDecorate %35 ArrayStride 4
               OpMemberDecorate %36 0 Offset 0
               OpDecorate %36 BufferBlock
               OpDecorate %38 DescriptorSet 0
               OpDecorate %38 Binding 2
               OpDecorate %46 BuiltIn WorkgroupSize
               OpMemberDecorate %49 0 Offset 0
               OpDecorate %49 BufferBlock
               OpDecorate %51 DescriptorSet 0
          %2 = OpTypeVoid
          %3 = OpTypeFunction %2
          %6 = OpTypeInt 32 0
          %7 = OpTypePointer Function %6
          %9 = OpConstant %6 1
         %11 = OpConstant %6 0
         %18 = OpTypeVector %6 3
         %19 = OpTypePointer Input %18
         %20 = OpVariable %19 Input
         %21 = OpTypePointer Input %6
         %24 = OpTypeBool
         %26 = OpConstant %6 2
         %32 = OpTypeInt 32 1
         %33 = OpConstant %32 1
         %35 = OpTypeRuntimeArray %6
         %36 = OpTypeStruct %35
         %37 = OpTypePointer Uniform %36
         %38 = OpVariable %37 Uniform
         %39 = OpConstant %32 0
         %43 = OpTypePointer Uniform %6
         %45 = OpConstant %6 32
         %46 = OpConstantComposite %18 %45 %45 %45
         %47 = OpTypeFloat 32
         %48 = OpTypeVector %47 3
         %49 = OpTypeStruct %48
         %50 = OpTypePointer Uniform %49
         %51 = OpVariable %50 Uniform
          %4 = OpFunction %2 None %3
          %5 = OpLabel
          %8 = OpVariable %7 Function
         %10 = OpVariable %7 Function
               OpStore %8 %9
               OpStore %10 %11
               OpBranch %12
         %12 = OpLabel
               OpLoopMerge %14 %15 None
               OpBranch %16
         %16 = OpLabel
         %17 = OpLoad %6 %10
         %22 = OpAccessChain %21 %20 %9
         %23 = OpLoad %6 %22
         %25 = OpULessThan %24 %17 %23
               OpBranchConditional %25 %13 %14
         %13 = OpLabel
         %27 = OpAccessChain %21 %20 %26
         %28 = OpLoad %6 %27
         %29 = OpLoad %6 %8
         %30 = OpIMul %6 %29 %28
               OpStore %8 %30
               OpBranch %15
         %15 = OpLabel
         %31 = OpLoad %6 %10
         %34 = OpIAdd %6 %31 %33
               OpStore %10 %34
               OpBranch %12
         %14 = OpLabel
         %40 = OpAccessChain %21 %20 %11
         %41 = OpLoad %6 %40
         %42 = OpLoad %6 %8
         %44 = OpAccessChain %43 %38 %39 %41
               OpStore %44 %42
               OpReturn
               OpFunctionEnd
"%string.

Example loop_simple_disassemble_ok : disassemble_ok loop_simple_spv loop_simple_dis = true.
Proof. vm_compute. reflexivity. Qed.
Example loop_simple_logical_pass_ok : logical_pass_ok loop_simple_spv = true.
Proof. vm_compute. reflexivity. Qed.
Example loop_simple_cfa_ok : cfa_ok loop_simple_spv = true.
Proof. vm_compute. reflexivity. Qed.

