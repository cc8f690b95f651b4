(** Specification: the clients of SpecShare.v, with every access to memory a step of its own; and clients given by Go functions who share joiners. *)
From Coq Require Import String.
From Verif Require Import SpecIter SpecApi ApiInst.
From Verif Require Import Base GoSyntax GoSem SpecCode SpecCode2 SpecIterators SpecSteps.
From Verif Require SpecShare CodeWords Words.
Local Open Scope string_scope.
Local Open Scope list_scope.
Import SpecShare (client, CGraphemes, CWords, CSentences, CPhrases, CIterators).

Section Client.
  Variable p : program.
  Variables rounds depth : nat.
  Definition tmethod (m : string) (it : val) (vs : list val) : act (list val) := tcall p rounds depth ("Iterator", m) (it :: vs).
  (** As in SpecCode.v; [config] is what the client writes to change a setting. *)
  Definition tuse {C} (config : val -> C -> act (list val)) (it : val) (u : use C) : act (list val) :=
    match u with
    | UNext => tmethod "Next" it []
    | UValue => tmethod "Value" it []
    | UStart => tmethod "Start" it []
    | UEnd => tmethod "End" it []
    | UReset => tmethod "Reset" it []
    | USetText t => tmethod "SetText" it [text_val t]
    | UFirst => tmethod "First" it []
    | UConfig c => config it c
    end.
  Fixpoint tuses {C} (config : val -> C -> act (list val)) (us : list (use C)) (it : val) : act (list (list val)) :=
    match us with
    | [] => ret []
    | u :: r => vs <~~ tuse config it u ;; l <~~ tuses config r it ;; ret (vs :: l)
    end.
  Definition tgo_client {C} (config : val -> C -> act (list val)) (t : text) (us : list (use C)) : act (list (list val)) :=
    vs <~~ tcall p rounds depth ("", if is_string (fst t) then "FromString" else "FromBytes") [text_val t] ;;
    match vs with [it] => tuses config us it | _ => stop Wedged end.
  (** The settings, as in CodeGraphemes.v, CodeWords.v and SpecCode2.v. *)
  Definition tgraphemes_config (it : val) (c : bool * bool) : act (list val) :=
    _ <~~ texec p (tcall p rounds depth) rounds (SAssign [ESel (EId "it") "AnsiEscapeSequences"; ESel (EId "it") "AnsiEscapeSequences8Bit"] [EId "a7"; EId "a8"])
            [[("it", it); ("a7", VBool (fst c)); ("a8", VBool (snd c))]] ;; ret [].
  Definition twords_config (nils : bool) (it : val) (c : option Words.Joiners + splitfun) : act (list val) :=
    match c with
    | inl (Some j) => _ <~~ texec p (tcall p rounds depth) rounds (SExpr (ECall (ESel (EId "it") "Joiners") [EUn "&" (EComp "Joiners" [("Middle", EId "m"); ("Leading", EId "l")])]))
                              [[("it", it); ("m", CodeWords.runes_val nils (Words.Middle j)); ("l", CodeWords.runes_val nils (Words.Leading j))]] ;; ret []
    | inl None => _ <~~ texec p (tcall p rounds depth) rounds (SExpr (ECall (ESel (EId "it") "Joiners") [EId "nil"])) [[("it", it)]] ;; ret []
    | inr f => _ <~~ tmethod "Split" it [VExt f] ;; ret []
    end.
  Definition tno_config (it : val) (c : Empty_set) : act (list val) := match c with end.
  Definition tsplit_config (it : val) (f : splitfun) : act (list val) := tmethod "Split" it [VExt f].
End Client.
Section Programs.
  Variables pg pw ps pp pi : program.
  Variable nils : bool.
  Variables rounds depth : nat.
  Definition tclient (c : client) : act (list (list val)) :=
    match c with
    | CGraphemes t us => tgo_client pg rounds depth (tgraphemes_config pg rounds depth) t us
    | CWords t us => tgo_client pw rounds depth (twords_config pw rounds depth nils) t us
    | CSentences t us => tgo_client ps rounds depth tno_config t us
    | CPhrases t us => tgo_client pp rounds depth tno_config t us
    | CIterators f t us => vs <~~ tcall pi rounds depth ("", "New") [VExt f; text_val t] ;; match vs with [it] => tuses pi rounds depth (tsplit_config pi rounds depth) us it | _ => stop Wedged end
    end.
  (** How many uses a client makes. *)
  Definition uses (c : client) : nat :=
    match c with
    | CGraphemes _ us => length us | CWords _ us => length us | CSentences _ us => length us | CPhrases _ us => length us | CIterators _ _ us => length us
    end.
End Programs.

(** A program and the functions of a client. *)
Definition extend (p : program) (fs : list (fid * fundecl)) : program :=
  {| p_funs := p_funs p ++ fs; p_types := p_types p; p_structs := p_structs p; p_globals := p_globals p; p_letter := p_letter p; p_number := p_number p |}.
(** The fields of a Joiners. *)
Definition joiner_field (x : string) : bool := String.eqb x "Middle" || String.eqb x "Leading".
(** A Joiners in memory. *)
Definition is_joiners (h : heap) (l : nat) : Prop := exists m d, hget l h = Some ("Joiners", [("Middle", VRunes m); ("Leading", VRunes d)]).
