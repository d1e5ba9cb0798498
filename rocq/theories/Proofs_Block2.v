(** The crate's own readers as code written against MemoryBlock, lists of items, and modules, C94. *)
From Verif Require Import Base Types Ops ReadErr Utf8 ReadBase ReadOperands ExtSet ReadOps Reader Glsl450 MemoryBlock Spec_Wire Spec_Block
  Proofs_Facts Proofs_Reader Proofs_Block.

Lemma code_string : code read_LitString.
Proof.
  apply (code_ext _ _ (fun ws => let! (block, bytes) := read_bytes ws [] in match from_utf8 bytes with Some s => Ok (block, s) | None => Err InvalidString end)).
  - reflexivity.
  - refine (code_bind _ _ (fun ws => read_bytes ws []) (fun bytes block => match from_utf8 bytes with Some s => Ok (block, s) | None => Err InvalidString end) code_bytes _).
    intro bytes. destruct (from_utf8 bytes); [apply code_ok|apply code_err].
Defined.

Ltac code :=
  lazymatch goal with
  | |- code read_word => exact code_word
  | |- code read_LitString => exact code_string
  | |- code (read_Vec _ _) => apply code_vec; code
  | |- code (read_Option _) => apply code_option; code
  | |- code (fun ws => Ok (ws, _)) => apply code_ok
  | |- code (fun ws => Err _) => apply code_err
  | |- code (fun ws => bind (@?r ws) _) => refine (code_bind' _ _ r _ _ _); [cbn beta; code|let a := fresh "a" in intro a; cbn beta iota; code]
  | |- code (fun ws => match ?x with _ => _ end) => destruct x; code
  | |- code (fun ws => ?r ws) => change (code r); code
  | |- code ?r => unfold r; code
  end.

Lemma plain_code : forall E A (read : Reader A) (c : A -> Core E), code read ->
  exists p, forall ws known bound, plain read c ws known bound = (let! (rest, i) := run p ws in Ok (rest, i, bound)).
Proof.
  intros E A read c [p Hp]. exists (bind_program p (fun a => Finish (c a))). intros ws known bound. unfold plain. rewrite run_bind, Hp.
  destruct (run p ws) as [[rest a]| | |]; reflexivity.
Qed.

Lemma dispatched_code : forall E op wc (read : CoreReader (E := E)), dispatch op wc = Ok read -> op <> 11%N -> op <> 12%N ->
  exists p, forall ws known bound, read ws known bound = (let! (rest, i) := run p ws in Ok (rest, i, bound)).
Proof.
  intros E op wc read H N1 N2. unfold dispatch in H.
  repeat match type of H with
  | Err _ = _ => discriminate H
  | Ok _ = _ => fail 1
  | match ?x with _ => _ end = _ => is_var x; destruct x
  | (if ?x then _ else _) = _ => destruct x
  end; try discriminate H; try congruence;
  (injection H as <-; refine (plain_code _ _ _ _ _); code).
Qed.

Lemma code_writable : forall A (read : Reader A), code read -> writable read.
Proof. intros A read [p Hp]. exists p. exact Hp. Qed.

Lemma writable_vec : forall A size (read : Reader A), writable read -> writable (read_Vec size read).
Proof. intros A size read [p Hp]. apply code_writable, code_vec. exists p. exact Hp. Qed.
Lemma writable_option : forall A (read : Reader A), writable read -> writable (read_Option read).
Proof. intros A read [p Hp]. apply code_writable, code_option. exists p. exact Hp. Qed.

(** ** Vec *)
Lemma items_fuel : forall A (read : Reader A), writable read -> forall fuel ws acc, List.length ws <= fuel ->
  exists items stop, items_then read ws items stop /\
    read_items fuel read ws acc = match stop with None => Ok ([], acc ++ items) | Some f => fail f end.
Proof.
  intros A read [p Hp] fuel. induction fuel as [|fuel IH]; intros ws acc L.
  { destruct ws; [|cbn in L; lia]. exists [], None. split; [constructor|cbn; rewrite app_nil_r; reflexivity]. }
  destruct ws as [|w ws]; [exists [], None; split; [constructor|cbn; rewrite app_nil_r; reflexivity]|]. cbn [read_items].
  assert (NE : w :: ws <> []) by discriminate.
  destruct (read (w :: ws)) as [[rest x]|e| |] eqn:R; cbn [bind].
  - rewrite Hp in R. destruct (run_suffix _ _ _ _ _ R) as [used S]. rewrite <- Hp in R. destruct used as [|u used].
    + cbn in S. subst rest. exists [], (Some Hangs). split; [exact (items_stuck _ _ _ NE R)|]. cbn.
      (* the same words are read again *)
      assert (X : forall n acc, read_items n read (w :: ws) acc = OutOfFuel).
      { induction n as [|n IHn]; intro a; [reflexivity|]. cbn [read_items]. rewrite R. cbn [bind]. apply IHn. }
      apply X.
    + destruct (IH rest (acc ++ [x])) as (items & stop & T & RI).
      { apply (f_equal (@List.length N)) in S. rewrite app_length in S. cbn in S, L. lia. }
      exists (x :: items), stop. split; [|rewrite RI, <- app_assoc; reflexivity]. apply (items_next _ _ (u :: used) rest x items stop); [discriminate|exact S|exact R|exact T].
  - exists [], (Some (Returns_error e)). split; [apply items_error; assumption|reflexivity].
  - exists [], (Some Panics). split; [apply items_panic; assumption|reflexivity].
  - exists [], (Some Hangs). split; [apply items_hang; assumption|reflexivity].
Qed.

Lemma items_run : forall A (read : Reader A) ws items stop, items_then read ws items stop -> forall fuel acc, List.length ws <= fuel ->
  read_items fuel read ws acc = match stop with None => Ok ([], acc ++ items) | Some f => fail f end.
Proof.
  intros A read ws items stop H. induction H as [|ws e NE R|ws NE R|ws NE R|ws x NE R|ws used rest x items stop NE S R T IH]; intros fuel acc L.
  - destruct fuel; cbn; rewrite app_nil_r; reflexivity.
  - destruct ws as [|w ws]; [congruence|]. destruct fuel as [|fuel]; [cbn in L; lia|]. cbn [read_items]. rewrite R. reflexivity.
  - destruct ws as [|w ws]; [congruence|]. destruct fuel as [|fuel]; [cbn in L; lia|]. cbn [read_items]. rewrite R. reflexivity.
  - destruct ws as [|w ws]; [congruence|]. destruct fuel as [|fuel]; [cbn in L; lia|]. cbn [read_items]. rewrite R. reflexivity.
  - destruct ws as [|w ws]; [congruence|]. clear L. revert acc. induction fuel as [|fuel IH]; intro acc; [reflexivity|]. cbn [read_items].
    rewrite R. cbn [bind]. apply IH.
  - destruct used as [|u used]; [congruence|]. subst ws. destruct fuel as [|fuel]; [cbn in L; lia|]. cbn [read_items app]. cbn [app] in R. rewrite R.
    cbn [bind]. rewrite IH; [rewrite <- app_assoc; reflexivity|]. cbn in L. rewrite app_length in L. lia.
Qed.

Lemma vec_exact : forall A size (read : Reader A), (4 <= size)%N -> writable read ->
  (forall ws items stop, items_then read ws items stop ->
     read_Vec size read ws = match stop with None => Ok ([], items) | Some f => fail f end)
  /\ forall ws, exists items stop, items_then read ws items stop.
Proof.
  intros A size read L W. split.
  - intros ws items stop H. unfold read_Vec. replace (N.min 1 (size / 4)) with 1%N.
    + exact (items_run A read ws items stop H (List.length ws) [] (le_n _)).
    + symmetry. apply N.min_l. apply N.div_le_lower_bound; lia.
  - intro ws. destruct (items_fuel A read W (List.length ws) ws [] (le_n _)) as (items & stop & H & _). eauto.
Qed.

Lemma vec_panics : forall A size (read : Reader A) ws, (size < 4)%N -> read_Vec size read ws = Panic.
Proof. intros A size read ws L. unfold read_Vec. rewrite (N.div_small size 4 L). reflexivity. Qed.

(** ** Modules *)
Lemma returning_run : forall A (p : Program A), returning p -> forall ws, (exists r, run p ws = Ok r) \/ (exists e, run p ws = Err e).
Proof.
  intros A p R. induction R as [v|e|oe next [e He] _ IH|oe next [e He] _ IH|next _ IH|next _ IH]; intro ws.
  - left. eexists. reflexivity.
  - right. eexists. reflexivity.
  - destruct ws as [|w ws]; [right; exists e; cbn; rewrite He; reflexivity|apply IH].
  - destruct ws as [|w ws]; [right; exists e; cbn; rewrite He; reflexivity|apply IH].
  - apply IH.
  - apply IH.
Qed.

Lemma all_readers : writable read_u32 /\ writable read_OpId /\ writable read_ResultId /\ writable read_LitString /\ writable read_SourceVersion
  /\ writable read_MemberIndex /\ writable read_SourceLanguage /\ writable read_AddressingModel /\ writable read_MemoryModel
  /\ writable read_ExecutionModel /\ writable read_ExecutionMode /\ writable read_Capability /\ writable read_Signedness /\ writable read_Dim
  /\ writable read_DepthStatus /\ writable read_Arrayed /\ writable read_MS /\ writable read_SampledStatus /\ writable read_ImageFormat
  /\ writable read_AccessQualifier /\ writable read_StorageClass /\ writable read_BuiltIn /\ writable read_FunctionParameterAttribute
  /\ writable read_FpRoundingMode /\ writable read_LinkageType /\ writable read_FunctionControl /\ writable read_MemoryAccess
  /\ writable read_FpFastMathMode /\ writable read_Decoration /\ writable read_LoopControl /\ writable read_SelectionControl
  /\ writable read_BranchWeights /\ writable read_PhiArg.
Proof. repeat split; apply code_writable; code. Qed.

Lemma set_code : forall n, code (glsl450_read_instruction n).
Proof.
  intro n. unfold glsl450_read_instruction. refine (code_bind' _ _ (fun block => match n with 13 => read_sin block | 14 => read_cos block
    | _ => Err (UnknownExtInstOp glsl450_name n) end)%N _ _ _); [|intro a; apply code_ok].
  destruct n as [|p]; [apply code_err|]. repeat (first [apply code_err | code | destruct p as [p|p|]]).
Qed.
