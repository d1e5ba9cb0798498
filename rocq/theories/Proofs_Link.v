(** Putting valid files together and taking them apart, C134. *)
From Coq Require Import Lia.
From Verif Require Import Base Types Ops Groups ReadErr ReadBase ExtSet ReadOps Reader Validate Spec_Operands Spec_Wire Spec_Layout Spec_Order Spec_Rearrange Spec_Link
  Proofs_Layout Proofs_Layout2 Proofs_Reader Proofs_Facts Proofs_Facts2 Proofs_Rearrange.

Section Link.
Context {E : Type} (known : list (ExtInstSet E)).
Implicit Types (lm : LogicalModule E) (m : RawModule E) (i : Core E).

(** ** Where the imports and the extended instructions of a written module are *)
Definition imp i : list OpExtInstImport := match i with Core_OpExtInstImport op => [op] | _ => [] end.
Definition ext i : list (OpExtInst E) := match i with Core_OpExtInst op => [op] | _ => [] end.
Definition before_parts lm : list (Core E) :=
  map (fun c => Core_OpCapability (Build_OpCapability c)) (LogicalModule_capabilities lm)
  ++ map (fun s => Core_OpExtension (Build_OpExtension s)) (LogicalModule_extensions lm)
  ++ map Core_OpExtInstImport (LogicalModule_ext_inst_imports lm).
Definition after_parts lm : list (Core E) :=
  [Core_OpMemoryModel (LogicalModule_memory_model lm)]
  ++ map Core_OpEntryPoint (LogicalModule_entry_points lm)
  ++ map Core_OpExecutionMode (LogicalModule_execution_modes lm)
  ++ map core_of_debug (LogicalModule_debug lm)
  ++ map core_of_annotation (LogicalModule_annotations lm)
  ++ map core_of_global (LogicalModule_globals lm)
  ++ flat_map write_declaration (LogicalModule_function_declarations lm)
  ++ flat_map write_definition (LogicalModule_function_definitions lm).
Lemma write_parts : forall lm, write_module lm = before_parts lm ++ after_parts lm.
Proof. intros lm. unfold write_module, before_parts, after_parts. rewrite <- !app_assoc. reflexivity. Qed.
Lemma flat_none : forall A B C (f : B -> list C) (g : A -> B) l, (forall x, f (g x) = []) -> flat_map f (map g l) = [].
Proof. intros A B C f g l H. induction l as [|x l IH]; [reflexivity|]. cbn. rewrite H. exact IH. Qed.
Lemma flat_one : forall A B (f : B -> list A) (g : A -> B) l, (forall x, f (g x) = [x]) -> flat_map f (map g l) = l.
Proof. intros A B f g l H. induction l as [|x l IH]; [reflexivity|]. cbn. rewrite H, IH. reflexivity. Qed.
Lemma flat_flat : forall A B C (f : B -> list C) (g : A -> list B) l, (forall x, flat_map f (g x) = []) -> flat_map f (flat_map g l) = [].
Proof. intros A B C f g l H. induction l as [|x l IH]; [reflexivity|]. cbn. rewrite flat_map_app, H. exact IH. Qed.
Lemma imp_block : forall b : BasicBlock E, flat_map imp (write_block b) = [].
Proof.
  intros [label code merge branch]. unfold write_block. cbn [flat_map BasicBlock_label BasicBlock_code BasicBlock_merge BasicBlock_branch]. rewrite !flat_map_app.
  rewrite flat_none by (intros []; reflexivity). destruct merge as [[]|], branch; reflexivity.
Qed.
Lemma imp_after : forall lm, flat_map imp (after_parts lm) = [].
Proof.
  intros lm. unfold after_parts. rewrite !flat_map_app. cbn [flat_map imp app].
  rewrite (flat_none _ _ _ imp Core_OpEntryPoint), (flat_none _ _ _ imp Core_OpExecutionMode), (flat_none _ _ _ imp core_of_debug), (flat_none _ _ _ imp core_of_annotation),
    (flat_none _ _ _ imp core_of_global), !flat_flat; try reflexivity; try (intros []; reflexivity).
  - intros d. unfold write_definition. cbn [flat_map imp app]. rewrite !flat_map_app, (flat_none _ _ _ imp Core_OpFunctionParameter) by reflexivity. rewrite flat_flat by apply imp_block. reflexivity.
  - intros d. unfold write_declaration. cbn [flat_map imp app]. rewrite !flat_map_app, (flat_none _ _ _ imp Core_OpFunctionParameter) by reflexivity. reflexivity.
  - intros [[]|[]|]; reflexivity.
Qed.
Lemma imports_write : forall lm, imports_of (write_module lm) = LogicalModule_ext_inst_imports lm.
Proof.
  intros lm. change (imports_of (write_module lm)) with (flat_map imp (write_module lm)). rewrite write_parts, flat_map_app, imp_after, app_nil_r. unfold before_parts. rewrite !flat_map_app.
  rewrite (flat_none _ _ _ imp (fun c => Core_OpCapability (Build_OpCapability c))), (flat_none _ _ _ imp (fun s => Core_OpExtension (Build_OpExtension s))) by reflexivity.
  cbn [app]. apply flat_one. reflexivity.
Qed.
Lemma import_in_write : forall lm op, In (Core_OpExtInstImport op) (write_module lm) <-> In op (LogicalModule_ext_inst_imports lm).
Proof. intros lm [id name]. rewrite in_imports, imports_write. reflexivity. Qed.

Lemma behind_start : forall A (l r before behind : list A) j, l ++ r = before ++ j :: behind -> ~ In j l -> exists k, before = l ++ k.
Proof.
  intros A l. induction l as [|x l IH]; intros r before behind j Q N; [exists before; reflexivity|]. destruct before as [|y before].
  - injection Q as Q _. exfalso. apply N. left. exact Q.
  - injection Q as <- Q. destruct (IH _ _ _ _ Q) as [k ->]; [intros X; apply N; right; exact X|]. exists k. reflexivity.
Qed.
Lemma ext_behind : forall lm before x behind, write_module lm = before ++ Core_OpExtInst x :: behind -> incl (map Core_OpExtInstImport (LogicalModule_ext_inst_imports lm)) before.
Proof.
  intros lm before x behind Q. rewrite write_parts in Q. apply behind_start in Q as [k ->].
  - intros y Y. apply in_or_app. left. unfold before_parts. apply in_or_app. right. apply in_or_app. right. exact Y.
  - unfold before_parts. intros X. apply in_app_or in X as [X|X]; [|apply in_app_or in X as [X|X]]; apply in_map_iff in X as (? & X & _); discriminate X.
Qed.

Lemma ext_in_definitions : forall x ds, In (Core_OpExtInst x) (flat_map write_definition ds : list (Core E)) <->
  exists f b, In f ds /\ In b (FunctionDefinition_blocks f) /\ In (GroupCode_OpExtInst x) (BasicBlock_code b).
Proof.
  intros x ds. rewrite in_flat_map. split.
  - intros (f & F & X). exists f. unfold write_definition in X. destruct X as [X|X]; [discriminate X|].
    apply in_app_or in X as [X|X]; [apply in_map_iff in X as (? & X & _); discriminate X|]. apply in_app_or in X as [X|[X|[]]]; [|discriminate X].
    apply in_flat_map in X as (b & B & X). exists b. split; [exact F|]. split; [exact B|]. destruct X as [X|X]; [discriminate X|].
    apply in_app_or in X as [X|X].
    + apply in_map_iff in X as (c & X & C). destruct c; try discriminate X. injection X as ->. exact C.
    + apply in_app_or in X as [X|[X|[]]]; [destruct (BasicBlock_merge b) as [[]|]; try destruct X as [X|[]]; try discriminate X; destruct X|destruct (BasicBlock_branch b); discriminate X].
  - intros (f & b & F & B & C). exists f. split; [exact F|]. right. apply in_or_app. right. apply in_or_app. left. apply in_flat_map. exists b. split; [exact B|].
    right. apply in_or_app. left. apply in_map_iff. exists (GroupCode_OpExtInst x). split; [reflexivity|exact C].
Qed.
Lemma ext_in_write : forall x lm, In (Core_OpExtInst x) (write_module lm) <->
  exists f b, In f (LogicalModule_function_definitions lm) /\ In b (FunctionDefinition_blocks f) /\ In (GroupCode_OpExtInst x) (BasicBlock_code b).
Proof.
  intros x lm. rewrite <- ext_in_definitions. unfold write_module. split.
  - intros X. do 10 (apply in_app_or in X; destruct X as [X|X]; [exfalso; first [
      apply in_map_iff in X as (g & X & _); first [discriminate X | destruct g; discriminate X | destruct g as [[]|[]|]; discriminate X]
      | destruct X as [X|[]]; discriminate X
      | apply in_flat_map in X as (g & _ & [X|X]); [discriminate X|]; apply in_app_or in X as [X|[X|[]]]; [apply in_map_iff in X as (? & X & _); discriminate X|discriminate X] ]|]).
    exact X.
  - intros X. do 10 (apply in_or_app; right). exact X.
Qed.

(** ** Putting instructions of files together *)
Lemma build : forall lm, (exists data m, read_module data known = Ok m) -> canonical lm -> import_ids_differ lm ->
  (forall i, In i (write_module lm) -> exists data m, read_module data known = Ok m /\ In i (RawModule_instructions m)
     /\ forall x name, i = Core_OpExtInst x -> In (Core_OpExtInstImport (Build_OpExtInstImport (OpExtInst_set x) name)) (RawModule_instructions m) ->
        In (Build_OpExtInstImport (OpExtInst_set x) name) (LogicalModule_ext_inst_imports lm)) ->
  has_file known lm.
Proof.
  intros lm (data0 & m0 & R0) C D H.
  assert (P : can_be_read known m0 (write_module lm)).
  { apply (read_placed known m0 _ (ex_intro _ data0 R0)). intros before i behind Q.
    destruct (H i ltac:(rewrite Q; apply in_elt)) as (data & m & R & X & S).
    assert (R1 : can_be_read known m (RawModule_instructions m)) by (exists data; rewrite R; destruct m; reflexivity).
    pose proof (proj1 (read_placed known m (RawModule_instructions m) (ex_intro _ data R)) R1) as R2. clear R1.
    apply in_split in X as (b0 & a0 & X). destruct (R2 b0 i a0 X) as (wc & body & W & L1 & L2 & L3). exists wc, body.
    split; [|split; [exact L1|]; split; [exact L2|exact L3]].
    destruct i; try exact W.
    + destruct W as (W1 & W2 & _). split; [exact W1|]. split; [exact W2|]. apply (differ_before before _ behind). rewrite <- Q. unfold imports_differ. rewrite imports_write. exact D.
    + destruct W as (number & rest & r & B & (name & N1 & N2) & K). exists number, rest, r. split; [exact B|]. split; [|exact K].
      exists name. split; [|exact N2]. apply (ext_behind lm before _ behind Q). apply in_map. apply (S _ name eq_refl). rewrite X. apply in_or_app. left. exact N1. }
  destruct P as [data P]. exists data, (with_instructions m0 (write_module lm)). split; [exact P|]. apply validate_iff. split; [reflexivity|exact C].
Qed.
Lemma file_facts : forall lm, has_file known lm -> import_ids_differ lm /\ sets_imported lm /\ first_has_body lm.
Proof.
  intros lm (data & m & R & V). apply validate_iff in V as [W (C1 & C2 & C3)]. destruct (read_both known data m R) as [F D]. rewrite W in F, D.
  unfold imports_differ in D. rewrite imports_write in D. split; [exact D|]. split; [|exact C3].
  intros f b x X1 X2 X3. assert (X : In (Core_OpExtInst x) (write_module lm)) by (apply ext_in_write; eauto).
  apply in_split in X as (before & behind & X). destruct (F _ _ _ X) as [name Y].
  assert (Z : In (Build_OpExtInstImport (OpExtInst_set x) name) (LogicalModule_ext_inst_imports lm)). { apply import_in_write. rewrite X. apply in_or_app. left. exact Y. }
  apply (in_map OpExtInstImport_result_id) in Z. exact Z.
Qed.

Lemma in_link : forall (a b : LogicalModule E) i, In i (write_module (link a b)) -> In i (write_module a) \/ In i (write_module b).
Proof.
  intros a b i X. unfold write_module in *. cbn [link LogicalModule_capabilities LogicalModule_extensions LogicalModule_ext_inst_imports LogicalModule_memory_model LogicalModule_entry_points
    LogicalModule_execution_modes LogicalModule_debug LogicalModule_annotations LogicalModule_globals LogicalModule_function_declarations LogicalModule_function_definitions] in X.
  rewrite !map_app, !flat_map_app in X. rewrite !in_app_iff in *. tauto.
Qed.
Theorem linked : forall a b, has_file known a -> has_file known b -> (has_file known (link a b) <-> imports_apart a b).
Proof.
  intros a b A B. split.
  - intros L x y X Y Q. apply file_facts in L as [D _]. unfold import_ids_differ in D. cbn [link LogicalModule_ext_inst_imports] in D. rewrite map_app in D.
    apply (in_map OpExtInstImport_result_id) in X, Y. rewrite Q in X. apply in_split in X as (k1 & k2 & X). rewrite X, <- app_assoc in D. cbn [app] in D. apply NoDup_remove_2 in D.
    apply D. apply in_or_app. right. apply in_or_app. right. exact Y.
  - intros P. destruct (file_facts a A) as [DA _], (file_facts b B) as [DB _]. destruct A as (data & m & R & V), B as (data' & m' & R' & V').
    pose proof V as V0. pose proof V' as V0'. apply validate_iff in V as [W (C1 & C2 & C3)], V' as [W' (C1' & C2' & C3')].
    apply build; [exists data, m; exact R| | |].
    + split; [apply Forall_app; split; assumption|]. split; [apply Forall_app; split; assumption|]. cbn [link LogicalModule_function_definitions].
      destruct (LogicalModule_function_definitions a) as [|d ds]; [exact C3'|exact C3].
    + unfold import_ids_differ. cbn [link LogicalModule_ext_inst_imports]. rewrite map_app. unfold import_ids_differ in DA, DB.
      assert (K : forall l l' : list N, NoDup l -> NoDup l' -> (forall x, In x l -> ~ In x l') -> NoDup (l ++ l')).
      { induction l as [|x l IH]; intros l' K1 K2 K3; [exact K2|]. inversion K1; subst. cbn. constructor.
        - intros X. apply in_app_or in X as [X|X]; [contradiction|]. exact (K3 x (or_introl eq_refl) X).
        - apply IH; [assumption|assumption|]. intros y Y. apply K3. right. exact Y. }
      apply K; [exact DA|exact DB|]. intros x X Y. apply in_map_iff in X as (u & <- & X), Y as (v & Y1 & Y). exact (P u v X Y (eq_sym Y1)).
    + intros i X. apply in_link in X as [X|X].
      * exists data, m. split; [exact R|]. rewrite W. split; [exact X|]. intros x name _ N. apply import_in_write in N. apply in_or_app. left. exact N.
      * exists data', m'. split; [exact R'|]. rewrite W'. split; [exact X|]. intros x name _ N. apply import_in_write in N. apply in_or_app. right. exact N.
Qed.

Lemma in_taken : forall (a b : LogicalModule E) i, taken_from a b -> In i (write_module b) -> In i (write_module a).
Proof.
  intros a b i [P1 P2 P3 P4 P5 P6 P7 P8 P9 P10 P11] X. unfold write_module in *. rewrite P4 in X. rewrite !in_app_iff in *.
  repeat (destruct X as [X|X]; [try (left; first [exact X | apply (incl_map _ P1); exact X | apply (incl_map _ P2); exact X | apply (incl_map _ P3); exact X | apply (incl_map _ P5); exact X
    | apply (incl_map _ P6); exact X | apply (incl_map _ P7); exact X | apply (incl_map _ P8); exact X | apply (incl_map _ P9); exact X
    | apply in_flat_map in X as (d & K & X); apply in_flat_map; exists d; split; [apply P10; exact K|exact X]])|right]).
  apply in_flat_map in X as (d & K & X). apply in_flat_map. exists d. split; [apply P11; exact K|exact X].
Qed.
Theorem taken : forall a b, has_file known a -> taken_from a b -> (has_file known b <-> first_has_body b /\ sets_imported b /\ import_ids_differ b).
Proof.
  intros a b A T. split; [intros B; destruct (file_facts b B) as (X & Y & Z); split; [exact Z|]; split; [exact Y|exact X]|].
  intros (F & S & D). destruct (file_facts a A) as (DA & _ & _). destruct A as (data & m & R & V). apply validate_iff in V as [W (C1 & C2 & C3)].
  apply build; [exists data, m; exact R| |exact D|].
  - rewrite Forall_forall in C1, C2. split; [apply Forall_forall; intros g G; apply C1; exact (taken_globals _ _ T g G)|].
    split; [apply Forall_forall; intros g G; apply C2; exact (taken_definitions _ _ T g G)|exact F].
  - intros i X. exists data, m. split; [exact R|]. rewrite W. split; [exact (in_taken a b i T X)|]. intros x name -> N. apply import_in_write in N.
    apply ext_in_write in X as (f & k & X1 & X2 & X3). pose proof (S f k x X1 X2 X3) as Y. apply in_map_iff in Y as ([id name'] & Y1 & Y). cbn in Y1. subst id.
    replace name with name'; [exact Y|]. apply (one_name (write_module a) (OpExtInst_set x)).
    + unfold imports_differ. rewrite imports_write. exact DA.
    + apply import_in_write. exact (taken_imports _ _ T _ Y).
    + apply import_in_write. exact N.
Qed.
End Link.

(** ** Not without conditions *)
From Verif Require Import Glsl450 Samples.
Lemma sample_valid : exists lm, validate sample = Ok lm /\ LogicalModule_ext_inst_imports lm = [Build_OpExtInstImport 1%N "GLSL.std.450"%string].
Proof. eexists. split; [vm_compute; reflexivity|reflexivity]. Qed.
Lemma not_with_itself : ~ (forall E (known : list (ExtInstSet E)) a b, has_file known a -> has_file known b -> has_file known (link a b)).
Proof.
  intros H. destruct sample_valid as (lm & V & I). assert (F : has_file [InstSet] lm) by (exists (sample_bytes LittleEndian), sample; split; [apply sample_read|exact V]).
  pose proof (H _ _ _ _ F F) as L. apply (linked _ _ _ F F) in L. apply (L (Build_OpExtInstImport 1%N "GLSL.std.450"%string) (Build_OpExtInstImport 1%N "GLSL.std.450"%string)); [rewrite I; left; reflexivity|rewrite I; left; reflexivity|reflexivity].
Qed.
