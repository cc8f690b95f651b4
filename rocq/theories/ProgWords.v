(** The program text of package words, read by GoSyntax.v, as a program of GoSem.v. *)
From Coq Require Import String.
From Verif Require Import Base Trie GoSyntax GoSem CodeText SourceWords TableWords Words.
Local Open Scope string_scope.
Local Open Scope list_scope.

(** The files, one after the other; of trie.go the part before the two arrays (words/trie.go:1-107). *)
Definition words_files : list (list string) :=
  [firstn 107 words_lines; file_words_splitfunc; file_words_seek; file_words_joiners; file_words_iterator; file_words_bleve_compat].
Definition tprop : ity := Typed "property" U32.
Definition vp (x : N) : val := VInt tprop (Z.of_N x).
(** words/trie.go: the arrays, as in the model (that they are the ones in the text is C51). *)
Definition words_tables : list (string * val) := [("wordsValues", VArr tprop wordsValues); ("wordsIndex", VArr tprop wordsIndex)].
Definition words_code : option program :=
  compile none none words_tables words_files.

Definition pw_decls : list decl := Eval vm_compute in decls_of words_files.
Definition pw_consts : list (string * val) :=
  [("splitFuncBytes", VFun "splitFunc"); ("splitFuncString", VFun "splitFunc"); ("notfound", VInt Untyped (-1)); ("SplitFunc", VFun "splitFunc");
   ("_Ignore", vp _Ignore); ("_MidNumLetQ", vp _MidNumLetQ); ("_AHLetter", vp _AHLetter); ("_ZWJ", vp _ZWJ); ("_WSegSpace", vp _WSegSpace); ("_SingleQuote", vp _SingleQuote);
   ("_RegionalIndicator", vp _RegionalIndicator); ("_Numeric", vp _Numeric); ("_Newline", vp _Newline); ("_MidNumLet", vp _MidNumLet); ("_MidNum", vp _MidNum); ("_MidLetter", vp _MidLetter);
   ("_LF", vp _LF); ("_Katakana", vp _Katakana); ("_HebrewLetter", vp _HebrewLetter); ("_Format", vp _Format); ("_ExtendedPictographic", vp _ExtendedPictographic); ("_ExtendNumLet", vp _ExtendNumLet);
   ("_Extend", vp _Extend); ("_DoubleQuote", vp _DoubleQuote); ("_CR", vp _CR); ("_BleveIdeographic", vp _BleveIdeographic); ("_ALetter", vp _ALetter)].
Definition pw_funs : list (fid * fundecl) := Eval vm_compute in funs pw_decls.
Definition pw_types : list (string * ty) := Eval vm_compute in types pw_decls.
Definition pw_structs : list (string * list (string * ty)) := Eval vm_compute in structs pw_decls.
Definition pw0 : program :=
  {| p_funs := pw_funs; p_types := pw_types; p_structs := pw_structs; p_globals := pw_consts; p_letter := none; p_number := none |}.
Definition pw : program :=
  {| p_funs := pw_funs; p_types := pw_types; p_structs := pw_structs; p_globals := pw_consts ++ words_tables; p_letter := none; p_number := none |}.

Lemma words_parse : parse_all words_files = Some pw_decls.
Proof. vm_compute. reflexivity. Qed.
Lemma words_link : words_code = Some pw.
Proof.
  unfold words_code, compile. rewrite words_parse. unfold link.
  replace (globals {| p_funs := funs pw_decls; p_types := types pw_decls; p_structs := structs pw_decls; p_globals := []; p_letter := none; p_number := none |} pw_decls)
    with (Some pw0) by (vm_compute; reflexivity).
  reflexivity.
Qed.
