(** The program text of internal/iterators/iterator.go and internal/iterators/filter/filter.go, read by GoSyntax.v, as programs of GoSem.v. *)
From Coq Require Import String.
From Verif Require Import Base Trie GoSyntax GoSem CodeText.
Local Open Scope string_scope.
Local Open Scope list_scope.

Definition iterators_code : option program := compile none none [] [file_internal_iterator].
Definition pi_decls : list decl := Eval vm_compute in decls_of [file_internal_iterator].
Definition pi_funs : list (fid * fundecl) := Eval vm_compute in funs pi_decls.
Definition pi_types : list (string * ty) := Eval vm_compute in types pi_decls.
Definition pi_structs : list (string * list (string * ty)) := Eval vm_compute in structs pi_decls.
Definition pi_ : program := {| p_funs := pi_funs; p_types := pi_types; p_structs := pi_structs; p_globals := []; p_letter := none; p_number := none |}.
Lemma iterators_link : iterators_code = Some pi_.
Proof. vm_compute. reflexivity. Qed.

(** [letter], [number]: unicode.IsLetter and unicode.IsNumber. *)
Definition filter_code (letter number : N -> bool) : option program := compile letter number [] [file_internal_filter_filter].
Definition pf_decls : list decl := Eval vm_compute in decls_of [file_internal_filter_filter].
Definition pf_funs : list (fid * fundecl) := Eval vm_compute in funs pf_decls.
Definition pf_types : list (string * ty) := Eval vm_compute in types pf_decls.
Definition pf_structs : list (string * list (string * ty)) := Eval vm_compute in structs pf_decls.
Definition pf_globals : list (string * val) := Eval vm_compute in match filter_code none none with Some p => p_globals p | None => [] end.
Definition pf (letter number : N -> bool) : program := {| p_funs := pf_funs; p_types := pf_types; p_structs := pf_structs; p_globals := pf_globals; p_letter := letter; p_number := number |}.
Lemma filter_link : forall letter number, filter_code letter number = Some (pf letter number).
Proof. intros. vm_compute. reflexivity. Qed.
