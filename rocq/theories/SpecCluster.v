(** Specification: the regular expression for extended grapheme clusters, UAX #29 section 3, Table 1c, and how a text is cut by a regular expression. *)
From Verif Require Import Base SpecUcd SpecRules SpecGraphemes.

Definition Plus (r : re) : re := Cat r (Star r).

Definition crlf : re := Alt (Cat CR LF) (Alt CR LF).
Definition precore : re := Prepend.
Definition postcore : re := Alt Extend (Alt ZWJ SpacingMark).
(** L* (V+ | LV V* | LVT) T* | L+ | T+ *)
Definition hangul_syllable : re :=
  Alt (Cat (Star L) (Cat (Alt (Plus V) (Alt (Cat LV (Star V)) LVT)) (Star T))) (Alt (Plus L) (Plus T)).
Definition ri_sequence : re := Cat RI RI.
(** ExtPict (Extend* ZWJ ExtPict)* *)
Definition xpicto_sequence : re := Cat ExtPict_ (Star (Cat (Star Extend) (Cat ZWJ ExtPict_))).
(** Consonant ([Extend Linker]* Linker [Extend Linker]* Consonant)+, by the property Indic_Conjunct_Break *)
Definition conjunctCluster : re := Cat Consonant (Plus (Cat ExtOrLinker (Cat Linker (Cat ExtOrLinker Consonant)))).
(** any one character but Control, CR and LF *)
Definition not_control : re := Cls (fun c => negb (gc GCB_Control c || gc GCB_CR c || gc GCB_LF c)).
Definition core : re := Alt hangul_syllable (Alt ri_sequence (Alt xpicto_sequence (Alt conjunctCluster not_control))).

Definition extended_grapheme_cluster : re :=
  Alt crlf (Alt Control (Cat (Star precore) (Cat core (Star postcore)))).

(** The text cut from the left, each time at the longest match of [r]. *)
Inductive longest_matches (r : re) : text -> list text -> Prop :=
| lm_nil : longest_matches r [] []
| lm_cons : forall s rest segs, s <> [] -> matches r s ->
    (forall t u, s ++ rest = t ++ u -> matches r t -> length t <= length s) ->
    longest_matches r rest segs -> longest_matches r (s ++ rest) (s :: segs).

(** ASCII text: every character by itself, but CR LF together. *)
Fixpoint ascii_cut (d : list N) : list (list N) :=
  match d with
  | [] => []
  | c :: r => match c, r with
    | 13%N, 10%N :: r' => [13; 10]%N :: ascii_cut r'
    | _, _ => [c] :: ascii_cut r
    end
  end.
