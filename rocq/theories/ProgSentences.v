(** The program text of package sentences, read by GoSyntax.v, as a program of GoSem.v. *)
From Coq Require Import String.
From Verif Require Import Base Trie GoSyntax GoSem CodeText SourceSentences TableSentences Sentences.
Local Open Scope string_scope.
Local Open Scope list_scope.

(** The files, one after the other; of trie.go the part before the two arrays (sentences/trie.go:1-101). *)
Definition sentences_files : list (list string) :=
  [firstn 101 sentences_lines; file_sentences_splitfunc; file_sentences_seek; file_sentences_iterator].
Definition tprop : ity := Typed "property" U16.
Definition vp (x : N) : val := VInt tprop (Z.of_N x).
(** sentences/trie.go: the arrays, as in the model (that they are the ones in the text is C51). *)
Definition sentences_tables : list (string * val) := [("sentencesValues", VArr tprop sentencesValues); ("sentencesIndex", VArr tprop sentencesIndex)].
Definition sentences_code : option program :=
  compile none none sentences_tables sentences_files.

Definition ps_decls : list decl := Eval vm_compute in decls_of sentences_files.
Definition ps_consts : list (string * val) :=
  [("splitFuncBytes", VFun "splitFunc"); ("splitFuncString", VFun "splitFunc"); ("notfound", VInt Untyped (-1)); ("SplitFunc", VFun "splitFunc");
   ("_Ignore", vp _Ignore); ("_ParaSep", vp _ParaSep); ("_SATerm", vp _SATerm); ("_Upper", vp _Upper); ("_Sp", vp _Sp); ("_Sep", vp _Sep);
   ("_STerm", vp _STerm); ("_SContinue", vp _SContinue); ("_OLetter", vp _OLetter); ("_Numeric", vp _Numeric); ("_Lower", vp _Lower); ("_LF", vp _LF);
   ("_Format", vp _Format); ("_Extend", vp _Extend); ("_Close", vp _Close); ("_CR", vp _CR); ("_ATerm", vp _ATerm)].
Definition ps_funs : list (fid * fundecl) := Eval vm_compute in funs ps_decls.
Definition ps_types : list (string * ty) := Eval vm_compute in types ps_decls.
Definition ps_structs : list (string * list (string * ty)) := Eval vm_compute in structs ps_decls.
Definition ps0 : program :=
  {| p_funs := ps_funs; p_types := ps_types; p_structs := ps_structs; p_globals := ps_consts; p_letter := none; p_number := none |}.
Definition ps : program :=
  {| p_funs := ps_funs; p_types := ps_types; p_structs := ps_structs; p_globals := ps_consts ++ sentences_tables; p_letter := none; p_number := none |}.

Lemma sentences_parse : parse_all sentences_files = Some ps_decls.
Proof. vm_compute. reflexivity. Qed.
Lemma sentences_link : sentences_code = Some ps.
Proof.
  unfold sentences_code, compile. rewrite sentences_parse. unfold link.
  replace (globals {| p_funs := funs ps_decls; p_types := types ps_decls; p_structs := structs ps_decls; p_globals := []; p_letter := none; p_number := none |} ps_decls)
    with (Some ps0) by (vm_compute; reflexivity).
  reflexivity.
Qed.
