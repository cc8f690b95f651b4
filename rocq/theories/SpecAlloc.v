(** Specification: what iterating leaves in memory.  The READMEs promise "~constant memory, and no allocations". *)
From Coq Require Import String.
From Verif Require Import SpecIter SpecApi ApiInst.
From Verif Require Import Base GoSyntax GoSem SpecCode SpecCode2 SpecIterators.
From Verif Require SpecShare SpecSteps.
Local Open Scope string_scope.
Local Open Scope list_scope.
Import SpecShare (client, CGraphemes, CWords, CSentences, CPhrases, CIterators).

(** What calls made one after the other return, and the memory after them. *)
Fixpoint in_turn (us : list (val -> heap -> out (list val * heap))) (it : val) (h : heap) : out (list (list val) * heap) :=
  match us with
  | [] => Done ([], h)
  | u :: r => ' (vs, h) <== u it h ;; ' (l, h) <== in_turn r it h ;; Done (vs :: l, h)
  end.

(** The structs that can still be found from a value: those it refers to, and those they refer to. *)
Definition refers (v : val) (l : nat) : Prop := SpecSteps.within (fun k => negb (Nat.eqb k l)) v = false.
Inductive live (h : heap) (v : val) : nat -> Prop :=
| live_here : forall l, refers v l -> live h v l
| live_field : forall l n fs x w l', live h v l -> hget l h = Some (n, fs) -> In (x, w) fs -> refers w l' -> live h v l'.

(** A client of words may bring a split function, or joiners, which are a struct too; the others have nothing but the iterator. *)
Definition most_live (c : client) : nat := match c with CWords _ _ => 2 | _ => 1 end.
(** First works on a copy of the iterator; the calls of package words keep an empty Joiners while they run.  Neither is counted as an allocation by Go, whose compiler finds
    that they can live on the stack: this is not modelled, so they are left out here and only shown not to be [live]. *)
Definition spare (c : client) : bool :=
  match c with
  | CGraphemes _ us => forallb (fun u => match u with UFirst => false | _ => true end) us
  | CSentences _ us | CPhrases _ us => forallb (fun u => match u with UFirst => false | _ => true end) us
  | CWords _ _ => false
  | CIterators _ _ _ => true
  end.

(** A conversion between string and []byte copies the text, which takes memory too: a call of the form [string(e)] or [[]byte(e)]. *)
Fixpoint converts (e : expr) : bool :=
  match e with
  | ECall f args => match f with EId "string" | ETy (TySlice _) => true | _ => converts f end || existsb converts args
  | EBin _ a b => converts a || converts b
  | EUn _ a => converts a
  | ESel a _ => converts a
  | EIndex a b => converts a || converts b
  | ESlice a lo hi => converts a || match lo with Some b => converts b | None => false end || match hi with Some b => converts b | None => false end
  | EComp _ fs => existsb (fun q => converts (snd q)) fs
  | EFn _ _ es => existsb converts es
  | _ => false
  end.
Fixpoint does_convert (s : stmt) : bool :=
  match s with
  | SVar _ _ (Some e) => converts e
  | SDefine _ es => existsb converts es
  | SAssign ls es => existsb converts ls || existsb converts es
  | SOp l _ e => converts l || converts e
  | SExpr e => converts e
  | SIf i c th el => match i with Some s => does_convert s | None => false end || converts c || existsb does_convert th || existsb does_convert el
  | SFor _ i c post body => match i with Some s => does_convert s | None => false end || match c with Some e => converts e | None => false end
                            || match post with Some s => does_convert s | None => false end || existsb does_convert body
  | SRange _ _ e body => converts e || existsb does_convert body
  | SSwitch cs tag d => existsb (fun q => existsb converts (fst q) || existsb does_convert (snd q)) cs || match tag with Some e => converts e | None => false end || existsb does_convert d
  | STypeSwitch _ e cs d => converts e || existsb (fun q => existsb does_convert (snd q)) cs || existsb does_convert d
  | SReturn es => existsb converts es
  | _ => false
  end.
(** The functions of a program that do. *)
Definition converting (p : program) : list fid := map fst (filter (fun q => existsb does_convert (fd_body (snd q))) (p_funs p)).

Section Programs.
  Variables pg pw ps pp pi : program.
  Notation start := (SpecShare.start pg pw ps pp pi).
  Notation calls := (SpecShare.calls pg pw ps pp pi).
  (** Making the iterator takes one struct.  After it no call takes any, whatever the text and however many calls: at every moment there are as many structs as after it was made. *)
  Definition no_allocations (least : nat) : Prop :=
    forall nils rounds depth max c h, SpecShare.proper_client max c -> spare c = true -> (Z.of_nat max < 2 ^ 62)%Z -> (2 * max + 2 <= rounds)%nat -> (least <= depth)%nat ->
    exists it h1, start rounds depth c h = Done ([it], h1) /\ length h1 = S (length h)
    /\ forall k vss h2, in_turn (firstn k (calls nils rounds depth c)) it h1 = Done (vss, h2) -> length h2 = length h1.
  (** Of the structs there are after any calls no more than this many can be found from the iterator, and none from what the calls have returned. *)
  Definition constant_memory (least : nat) : Prop :=
    forall nils rounds depth max c h, SpecShare.proper_client max c -> (Z.of_nat max < 2 ^ 62)%Z -> (2 * max + 2 <= rounds)%nat -> (least <= depth)%nat ->
    exists it h1, start rounds depth c h = Done ([it], h1)
    /\ forall k vss h2, in_turn (firstn k (calls nils rounds depth c)) it h1 = Done (vss, h2) ->
       (exists ls, (length ls <= most_live c)%nat /\ forall l, live h2 it l -> In l ls)
       /\ forall vs v l, In vs vss -> In v vs -> ~ live h2 v l.
End Programs.
