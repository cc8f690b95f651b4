(** The program text of package graphemes, read by GoSyntax.v, as a program of GoSem.v. *)
From Coq Require Import String.
From Verif Require Import Base Trie GoSyntax GoSem CodeText SourceGraphemes TableGraphemes Ansi.
Local Open Scope string_scope.
Local Open Scope list_scope.

(** The files, one after the other; of trie.go the part before the two arrays (graphemes/trie.go:1-104). *)
Definition graphemes_files : list (list string) :=
  [firstn 104 graphemes_lines; file_graphemes_splitfunc; file_graphemes_iterator; file_graphemes_ansi; file_graphemes_ansi8].
Definition tprop : ity := Typed "property" U32.
Definition vp (x : N) : val := VInt tprop (Z.of_N x).
(** graphemes/trie.go:105-1742: the arrays, as in the model (that they are the ones in the text is C51). *)
Definition graphemes_tables : list (string * val) := [("graphemesValues", VArr tprop graphemesValues); ("graphemesIndex", VArr tprop graphemesIndex)].
Definition graphemes_code : option program :=
  compile none none graphemes_tables graphemes_files.

Definition pg_decls : list decl := Eval vm_compute in decls_of graphemes_files.
Definition pg_consts : list (string * val) :=
  [("st", VInt Untyped (Z.of_N st)); ("sub", VInt Untyped (Z.of_N sub)); ("can", VInt Untyped (Z.of_N can)); ("bel", VInt Untyped (Z.of_N bel));
   ("cr", VInt Untyped (Z.of_N cr)); ("esc", VInt Untyped (Z.of_N esc));
   ("splitFuncBytes", VFun "splitFunc"); ("splitFuncString", VFun "splitFunc"); ("SplitFunc", VFun "splitFunc");
   ("incbLinker", VInt (Typed "incbState" I64) 2); ("incbConsonant", VInt (Typed "incbState" I64) 1); ("incbNone", VInt (Typed "incbState" I64) 0);
   ("_Ignore", vp _Extend); ("_ZWJ", vp _ZWJ); ("_V", vp _V); ("_T", vp _T); ("_SpacingMark", vp _SpacingMark); ("_RegionalIndicator", vp _RegionalIndicator);
   ("_Prepend", vp _Prepend); ("_LVT", vp _LVT); ("_LV", vp _LV); ("_LF", vp _LF); ("_L", vp _L); ("_InCBLinker", vp _InCBLinker);
   ("_InCBExtend", vp _InCBExtend); ("_InCBConsonant", vp _InCBConsonant); ("_ExtendedPictographic", vp _ExtendedPictographic); ("_Extend", vp _Extend);
   ("_Control", vp _Control); ("_CR", vp _CR)].
Definition pg_funs : list (fid * fundecl) := Eval vm_compute in funs pg_decls.
Definition pg_types : list (string * ty) := Eval vm_compute in types pg_decls.
Definition pg_structs : list (string * list (string * ty)) := Eval vm_compute in structs pg_decls.
Definition pg0 : program :=
  {| p_funs := pg_funs; p_types := pg_types; p_structs := pg_structs; p_globals := pg_consts; p_letter := none; p_number := none |}.
Definition pg : program :=
  {| p_funs := pg_funs; p_types := pg_types; p_structs := pg_structs; p_globals := pg_consts ++ graphemes_tables; p_letter := none; p_number := none |}.

Lemma graphemes_parse : parse_all graphemes_files = Some pg_decls.
Proof. vm_compute. reflexivity. Qed.
Lemma graphemes_link : graphemes_code = Some pg.
Proof.
  unfold graphemes_code, compile. rewrite graphemes_parse. unfold link.
  replace (globals {| p_funs := funs pg_decls; p_types := types pg_decls; p_structs := structs pg_decls; p_globals := []; p_letter := none; p_number := none |} pg_decls)
    with (Some pg0) by (vm_compute; reflexivity).
  reflexivity.
Qed.
