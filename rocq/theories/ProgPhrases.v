(** The program text of package phrases, read by GoSyntax.v, as a program of GoSem.v. *)
From Coq Require Import String.
From Verif Require Import Base Trie GoSyntax GoSem CodeText SourcePhrases TablePhrases Phrases.
Local Open Scope string_scope.
Local Open Scope list_scope.

(** The files, one after the other; of trie.go the part before the two arrays (phrases/trie.go:1-106). *)
Definition phrases_files : list (list string) :=
  [firstn 106 phrases_lines; file_phrases_splitfunc; file_phrases_seek; file_phrases_iterator].
Definition tprop : ity := Typed "property" U32.
Definition vp (x : N) : val := VInt tprop (Z.of_N x).
(** phrases/trie.go: the arrays, as in the model (that they are the ones in the text is C51). *)
Definition phrases_tables : list (string * val) := [("phrasesValues", VArr tprop phrasesValues); ("phrasesIndex", VArr tprop phrasesIndex)].
Definition phrases_code : option program :=
  compile none none phrases_tables phrases_files.

Definition pp_decls : list decl := Eval vm_compute in decls_of phrases_files.
Definition pp_consts : list (string * val) :=
  [("splitFuncBytes", VFun "splitFunc"); ("splitFuncString", VFun "splitFunc"); ("notfound", VInt Untyped (-1)); ("SplitFunc", VFun "splitFunc");
   ("_Ignore", vp _Ignore); ("_MidNumLetQ", vp _MidNumLetQ); ("_AHLetter", vp _AHLetter); ("_ZWJ", vp _ZWJ); ("_WSegSpace", vp _WSegSpace); ("_SingleQuote", vp _SingleQuote);
   ("_RegionalIndicator", vp _RegionalIndicator); ("_Numeric", vp _Numeric); ("_Newline", vp _Newline); ("_MidNumLet", vp _MidNumLet); ("_MidNum", vp _MidNum); ("_MidLetter", vp _MidLetter);
   ("_LF", vp _LF); ("_Katakana", vp _Katakana); ("_HebrewLetter", vp _HebrewLetter); ("_Format", vp _Format); ("_ExtendedPictographic", vp _ExtendedPictographic); ("_ExtendNumLet", vp _ExtendNumLet);
   ("_Extend", vp _Extend); ("_DoubleQuote", vp _DoubleQuote); ("_CR", vp _CR); ("_ALetter", vp _ALetter)].
Definition pp_funs : list (fid * fundecl) := Eval vm_compute in funs pp_decls.
Definition pp_types : list (string * ty) := Eval vm_compute in types pp_decls.
Definition pp_structs : list (string * list (string * ty)) := Eval vm_compute in structs pp_decls.
Definition pp0 : program :=
  {| p_funs := pp_funs; p_types := pp_types; p_structs := pp_structs; p_globals := pp_consts; p_letter := none; p_number := none |}.
Definition pp : program :=
  {| p_funs := pp_funs; p_types := pp_types; p_structs := pp_structs; p_globals := pp_consts ++ phrases_tables; p_letter := none; p_number := none |}.

Lemma phrases_parse : parse_all phrases_files = Some pp_decls.
Proof. vm_compute. reflexivity. Qed.
Lemma phrases_link : phrases_code = Some pp.
Proof.
  unfold phrases_code, compile. rewrite phrases_parse. unfold link.
  replace (globals {| p_funs := funs pp_decls; p_types := types pp_decls; p_structs := structs pp_decls; p_globals := []; p_letter := none; p_number := none |} pp_decls)
    with (Some pp0) by (vm_compute; reflexivity).
  reflexivity.
Qed.
