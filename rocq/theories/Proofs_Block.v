(** Proofs about code written against MemoryBlock, C94. *)
From Verif Require Import Base Types Ops ReadErr Utf8 ReadBase ReadOperands ExtSet ReadOps Reader MemoryBlock Spec_Wire Spec_Block Proofs_Facts Proofs_Reader.


(** ** Sessions *)
Inductive goes : list N -> list event -> list N -> Prop :=
| goes_nil : forall ws, goes ws [] ws
| goes_word : forall w ws es rest, goes ws es rest -> goes (w :: ws) (Got w :: es) rest
| goes_no_word : forall es rest, goes [] es rest -> goes [] (Got_nothing :: es) rest
| goes_remaining : forall ws es rest, goes ws es rest -> goes ws (Told_remaining (List.length ws) :: es) rest
| goes_end : forall ws es rest b, (b = true <-> ws = []) -> goes ws es rest -> goes ws (Told_end b :: es) rest.

Lemma words_of_app : forall a b, words_of (a ++ b) = words_of a ++ words_of b.
Proof. intros. unfold words_of. apply flat_map_app. Qed.

Lemma words_got : forall w es, words_of (Got w :: es) = w :: words_of es.
Proof. reflexivity. Qed.
Local Arguments words_of : simpl never.

Lemma goes_split : forall ws es rest, goes ws es rest -> ws = words_of es ++ rest.
Proof. induction 1; [reflexivity|rewrite words_got; cbn; f_equal; exact IHgoes|exact IHgoes|exact IHgoes|exact IHgoes]. Qed.

Lemma self_app : forall (a b : list N), a = a ++ b -> b = [].
Proof. intros a b H. apply (app_inv_head a). rewrite app_nil_r. symmetry. exact H. Qed.

Lemma goes_happens : forall ws es rest, goes ws es rest <-> ws = words_of es ++ rest /\ happens ws es.
Proof.
  intros ws es rest. split.
  - intro G. split; [exact (goes_split _ _ _ G)|]. split; [exists rest; exact (goes_split _ _ _ G)|].
    induction G; intros before e after EQ.
    + destruct before; discriminate.
    + destruct before as [|x before]; injection EQ as <- EQ; [exact I|]. specialize (IHG _ _ _ EQ).
      destruct e; rewrite ?words_got; cbn; [exact I|rewrite IHG; reflexivity|rewrite <- IHG; lia|].
      rewrite IHG. split; [intros ->; reflexivity|congruence].
    + destruct before as [|x before]; injection EQ as <- EQ; [reflexivity|]. exact (IHG _ _ _ EQ).
    + destruct before as [|x before]; injection EQ as <- EQ; [change (words_of []) with (@nil N); cbn; lia|]. exact (IHG _ _ _ EQ).
    + destruct before as [|x before]; injection EQ as <- EQ; [|exact (IHG _ _ _ EQ)].
      change (words_of []) with (@nil N). rewrite H. split; congruence.
  - intros [EQ [_ H]]. revert ws EQ H. induction es as [|e es IH]; intros ws EQ H.
    + cbn in EQ. subst. constructor.
    + pose proof (H [] e es eq_refl) as He. destruct e; rewrite ?words_got in EQ; change (words_of []) with (@nil N) in He; cbn in He.
      * cbn in EQ. subst. constructor. apply IH; [reflexivity|]. intros before e after E'. specialize (H (Got w :: before) e after (f_equal (cons (Got w)) E')). destruct e; rewrite ?words_got in H; cbn in H |- *; [exact I|congruence|lia|]. rewrite H. split; congruence.
      * destruct ws; [|discriminate]. constructor. apply IH; [exact EQ|]. intros before e after E'. exact (H (Got_nothing :: before) e after (f_equal (cons Got_nothing) E')).
      * rewrite Nat.add_0_r in He. subst n. constructor. apply IH; [exact EQ|]. intros before e after E'.
        exact (H (Told_remaining (List.length ws) :: before) e after (f_equal (cons _) E')).
      * constructor; [rewrite He; split; congruence|]. apply IH; [exact EQ|]. intros before e after E'.
        exact (H (Told_end b :: before) e after (f_equal (cons _) E')).
Qed.

Lemma run_does : forall A (p : Program A) ws, exists es rest r, does p es r /\ goes ws es rest /\ run p ws = (let! a := r in Ok (rest, a)).
Proof.
  intros A p. induction p as [value|f|on_error next IH|on_error next IH|next IH|next IH]; intro ws; cbn [run].
  - exists [], ws, (Ok value). repeat split; constructor.
  - exists [], ws, (fail f). repeat split; [constructor|constructor|destruct f; reflexivity].
  - destruct ws as [|w ws]; cbn.
    + exists [Got_nothing], [], (fail (on_error UnexpectedEndOfInstruction)). repeat split; [constructor|repeat constructor|destruct on_error; reflexivity].
    + destruct (IH w ws) as (es & rest & r & D & G & R). exists (Got w :: es), rest, r. repeat split; [constructor; exact D|constructor; exact G|exact R].
  - destruct ws as [|w ws]; cbn.
    + exists [Got_nothing], [], (fail (on_error UnexpectedEndOfInstruction)). repeat split; [constructor|repeat constructor|destruct on_error; reflexivity].
    + destruct (IH w ws) as (es & rest & r & D & G & R). exists (Got w :: es), rest, r. repeat split; [constructor; exact D|constructor; exact G|exact R].
  - destruct (IH (List.length ws) ws) as (es & rest & r & D & G & R). exists (Told_remaining (List.length ws) :: es), rest, r.
    repeat split; [constructor; exact D|constructor; exact G|exact R].
  - destruct (IH (is_end ws) ws) as (es & rest & r & D & G & R). exists (Told_end (is_end ws) :: es), rest, r.
    repeat split; [constructor; exact D|constructor; [|exact G]|exact R]. unfold is_end. destruct ws; cbn; split; congruence.
Qed.

Lemma does_run : forall A (p : Program A) es r, does p es r -> forall ws rest, goes ws es rest -> run p ws = (let! a := r in Ok (rest, a)).
Proof.
  intros A p es r D. induction D; intros ws rest G; inversion G; subst; cbn [run read_word read_op_id bind]; try (apply IHD; assumption).
  - reflexivity.
  - destruct f; reflexivity.
  - match goal with X : goes _ [] _ |- _ => inversion X; subst end. destruct (on_error UnexpectedEndOfInstruction); reflexivity.
  - match goal with X : goes _ [] _ |- _ => inversion X; subst end. destruct (on_error UnexpectedEndOfInstruction); reflexivity.
  - replace (is_end ws) with b; [apply IHD; assumption|]. unfold is_end. destruct ws; cbn; destruct b; try reflexivity; exfalso.
    + destruct H2 as [_ H2]. discriminate (H2 eq_refl).
    + destruct H2 as [H2 _]. discriminate (H2 eq_refl).
Qed.

Lemma run_exact : forall A (p : Program A) ws r, run p ws = r <->
  exists es rest answer, does p es answer /\ happens ws es /\ ws = words_of es ++ rest /\ r = (let! a := answer in Ok (rest, a)).
Proof.
  intros A p ws r. split.
  - intros <-. destruct (run_does A p ws) as (es & rest & answer & D & G & R). exists es, rest, answer.
    apply goes_happens in G as [S H]. auto.
  - intros (es & rest & answer & D & H & S & ->). apply (does_run A p es answer D). apply goes_happens. auto.
Qed.

Lemma run_accepts : forall A (p : Program A) ws x, run p ws = Ok ([], x) <-> exists es, does p es (Ok x) /\ happens ws es /\ words_of es = ws.
Proof.
  intros A p ws x. rewrite run_exact. split.
  - intros (es & rest & [a| | |] & D & H & S & R); try discriminate. injection R as <- ->. rewrite app_nil_r in S. exists es. auto.
  - intros (es & D & H & S). exists es, [], (Ok x). rewrite app_nil_r. auto.
Qed.

Lemma run_suffix : forall A (p : Program A) ws rest x, run p ws = Ok (rest, x) -> exists used, ws = used ++ rest.
Proof.
  intros A p ws rest x H. apply run_exact in H. destruct H as (es & rest' & [a| | |] & D & H & S & R); try discriminate.
  injection R as -> ->. exists (words_of es). exact S.
Qed.

(** ** Readers that are such code *)
Fixpoint bind_program {A B} (p : Program A) (k : A -> Program B) : Program B :=
  match p with
  | Finish a => k a
  | Give_up f => Give_up f
  | Read_word e next => Read_word e (fun w => bind_program (next w) k)
  | Read_op_id e next => Read_op_id e (fun w => bind_program (next w) k)
  | Ask_remaining next => Ask_remaining (fun n => bind_program (next n) k)
  | Ask_end next => Ask_end (fun b => bind_program (next b) k)
  end.

Lemma fail_bind : forall A B (f : failure) (k : A -> outcome ReadError B), bind (fail f) k = fail f.
Proof. intros A B [] k; reflexivity. Qed.

Lemma run_bind : forall A B (p : Program A) (k : A -> Program B) ws,
  run (bind_program p k) ws = (let! (ws, a) := run p ws in run (k a) ws).
Proof.
  intros A B p k. induction p as [value|f|on_error next IH|on_error next IH|next IH|next IH]; intro ws; cbn [run bind_program].
  - reflexivity.
  - rewrite fail_bind. reflexivity.
  - destruct ws as [|w ws]; cbn [read_word]; [rewrite fail_bind; reflexivity|apply IH].
  - destruct ws as [|w ws]; cbn [read_op_id read_word bind]; [rewrite fail_bind; reflexivity|apply IH].
  - apply IH.
  - apply IH.
Qed.

Definition code {A} (read : Reader A) : Type := { p : Program A | forall ws, read ws = run p ws }.

Lemma code_word : code read_word.
Proof. exists (Read_word Returns_error Finish). intros [|w ws]; reflexivity. Defined.
Lemma code_bind : forall A B (read : Reader A) (k : A -> Reader B), code read -> (forall a, code (k a)) ->
  code (fun ws => let! (rest, a) := read ws in k a rest).
Proof.
  intros A B read k [p Hp] H. exists (bind_program p (fun a => proj1_sig (H a))). intro ws. rewrite run_bind, Hp.
  destruct (run p ws) as [[rest a]| | |]; cbn [bind]; try reflexivity. exact (proj2_sig (H a) rest).
Defined.
Lemma code_bind' : forall A B (read : Reader A) (f : list N * A -> outcome ReadError (list N * B)), code read -> (forall a, code (fun rest => f (rest, a))) ->
  code (fun ws => bind (read ws) f).
Proof.
  intros A B read f H1 H2. destruct (code_bind _ _ read (fun a rest => f (rest, a)) H1 H2) as [p Hp]. exists p. intro ws. rewrite <- Hp.
  destruct (read ws) as [[rest a]| | |]; reflexivity.
Defined.
Lemma code_ok : forall A (a : A), code (fun ws => Ok (ws, a)).
Proof. intros A a. exists (Finish a). reflexivity. Defined.
Lemma code_err : forall A e, code (A := A) (fun ws => Err e).
Proof. intros A e. exists (Give_up (Returns_error e)). reflexivity. Defined.
Lemma code_ext : forall A (r1 r2 : Reader A), (forall ws, r1 ws = r2 ws) -> code r2 -> code r1.
Proof. intros A r1 r2 H [p Hp]. exists p. intro ws. rewrite H. apply Hp. Defined.

(* Vec *)
Fixpoint vec_program {A} (p : Program A) (fuel : nat) (items : list A) : Program (list A) :=
  Ask_end (fun b => if b then Finish items else
    match fuel with O => Give_up Hangs | S fuel => bind_program p (fun item => vec_program p fuel (items ++ [item])) end).

Lemma run_vec : forall A (read : Reader A) p, (forall ws, read ws = run p ws) -> forall fuel ws items,
  run (vec_program p fuel items) ws = read_items fuel read ws items.
Proof.
  intros A read p Hp fuel. induction fuel as [|fuel IH]; intros [|w ws] items; try reflexivity.
  cbn [vec_program run is_end List.length Nat.eqb read_items]. rewrite run_bind, Hp. destruct (run p (w :: ws)) as [[rest a]| | |]; cbn [bind]; try reflexivity.
  apply IH.
Qed.

Lemma code_vec : forall A size (read : Reader A), code read -> code (read_Vec size read).
Proof.
  intros A size read [p Hp]. destruct (N.eqb (N.min 1 (size / 4)) 0) eqn:E.
  - exists (Give_up Panics). intro ws. unfold read_Vec. rewrite E. reflexivity.
  - exists (Ask_remaining (fun n => vec_program p n [])). intro ws. unfold read_Vec. rewrite E. cbn [run]. unfold remaining.
    rewrite (run_vec A read p Hp). reflexivity.
Defined.

Lemma code_option : forall A (read : Reader A), code read -> code (read_Option read).
Proof.
  intros A read [p Hp]. exists (Ask_end (fun b => if b then Finish None else bind_program p (fun a => Finish (Some a)))).
  intros [|w ws]; [reflexivity|]. cbn [run is_end List.length Nat.eqb read_Option]. rewrite run_bind, Hp.
  destruct (run p (w :: ws)) as [[rest a]| | |]; reflexivity.
Defined.

Fixpoint bytes_program (fuel : nat) (bytes : list N) : Program (list N) :=
  Read_word Returns_error (fun w => let (null, bytes) := push_chars (chars_of_word w) bytes in
    if null then Finish bytes else match fuel with O => Give_up Hangs | S fuel => bytes_program fuel bytes end).
Lemma run_bytes : forall fuel ws bytes, List.length ws <= fuel -> run (bytes_program fuel bytes) ws = read_bytes ws bytes.
Proof.
  induction fuel as [|fuel IH]; intros [|w ws] bytes L; cbn [List.length] in L; try reflexivity; [lia|].
  cbn [bytes_program run read_word read_bytes]. destruct (push_chars (chars_of_word w) bytes) as [[] b]; [reflexivity|]. apply IH. lia.
Qed.
Lemma code_bytes : code (fun ws => read_bytes ws []).
Proof. exists (Ask_remaining (fun n => bytes_program n [])). intro ws. cbn [run]. symmetry. apply run_bytes. reflexivity. Defined.
