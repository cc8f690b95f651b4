(** A computation does the same with other addresses. *)
From Coq Require Import String.
From Verif Require Import Base Trie Utf8 GoSyntax GoSem SpecSteps StepsRun.
Local Open Scope string_scope.
Local Open Scope list_scope.

(** * Values that differ in their addresses *)
Definition world := nat -> nat -> Prop.
Section Val.
  Variable P : val -> Prop.
  Hypothesis Hstruct : forall n fs, Forall (fun q => P (snd q)) fs -> P (VStruct n fs).
  Hypothesis Hmethod : forall r m, P r -> P (VMethod r m).
  Hypothesis Hother : forall v, match v with VStruct _ _ | VMethod _ _ => True | _ => P v end.
  Fixpoint val_all (v : val) : P v.
  Proof.
    destruct v as [t z|b|o b|rs|n l|n l|n fs|f|r m|f| |e|s|t a|s]; try (match goal with |- P ?v => exact (Hother v) end).
    - apply Hstruct. induction fs as [|[x v] fs IH]; constructor; [apply val_all|exact IH].
    - apply Hmethod. apply val_all.
  Qed.
End Val.
Fixpoint vrel (w : world) (v v' : val) {struct v} : Prop :=
  match v with
  | VPtr n (Some l) => exists l', v' = VPtr n (Some l') /\ w l l'
  | VObj n l => exists l', v' = VObj n l' /\ w l l'
  | VStruct n fs => exists fs', v' = VStruct n fs' /\
      (fix frel (fs fs' : list (string * val)) : Prop :=
         match fs, fs' with [], [] => True | (x, v) :: r, (x', v') :: r' => x = x' /\ vrel w v v' /\ frel r r' | _, _ => False end) fs fs'
  | VMethod r m => exists r', v' = VMethod r' m /\ vrel w r r'
  | _ => v' = v
  end.
Fixpoint frel (w : world) (fs fs' : list (string * val)) : Prop :=
  match fs, fs' with [], [] => True | (x, v) :: r, (x', v') :: r' => x = x' /\ vrel w v v' /\ frel w r r' | _, _ => False end.
Lemma vrel_struct : forall w n fs v', vrel w (VStruct n fs) v' <-> exists fs', v' = VStruct n fs' /\ frel w fs fs'.
Proof.
  intros w n fs v'. cbn [vrel].
  assert (E : forall fs fs', (fix frel (fs fs' : list (string * val)) : Prop :=
         match fs, fs' with [], [] => True | (x, v) :: r, (x', v') :: r' => x = x' /\ vrel w v v' /\ frel r r' | _, _ => False end) fs fs' <-> frel w fs fs').
  { induction fs0 as [|[x v] fs0 IH]; intros [|[x' u] fs']; try reflexivity. cbn [frel]. rewrite IH. reflexivity. }
  split; intros (fs' & Q & H); exists fs'; (split; [exact Q|]); now apply E.
Qed.
Definition vsrel (w : world) : list val -> list val -> Prop := Forall2 (vrel w).
Definition erel (w : world) : vars -> vars -> Prop := Forall2 (frel w).
Definition orel (w : world) (o o' : object) : Prop := fst o = fst o' /\ frel w (snd o) (snd o').
Definition more (w w' : world) : Prop := forall l l', w l l' -> w' l l'.
Lemma more_refl : forall w, more w w. Proof. intros w l l' H. exact H. Qed.
Lemma more_trans : forall a b c, more a b -> more b c -> more a c. Proof. intros a b c H K l l' X. apply K, H, X. Qed.
Lemma vrel_more : forall w w', more w w' -> forall v v', vrel w v v' -> vrel w' v v'.
Proof.
  intros w w' M. apply (val_all (fun v => forall v', vrel w v v' -> vrel w' v v')).
  - intros n fs IH v' H. apply vrel_struct in H. destruct H as (fs' & -> & H). apply vrel_struct. exists fs'. split; [reflexivity|].
    revert fs' H. induction IH as [|[x v] fs Hv _ IH]; intros [|[x' u] fs'] H; try exact H. cbn in *. destruct H as (-> & H1 & H2). repeat split; [now apply Hv|now apply IH].
  - intros r m IH v' (r' & -> & H). exists r'. split; [reflexivity|]. now apply IH.
  - intros v. destruct v as [t z|b|o b|rs|n [l|]|n l|n fs|f|r m|f| |e|s|t a|s]; try exact I; intros v' H; try exact H; destruct H as (l' & -> & H); exists l'; split; auto.
Qed.
Lemma frel_more : forall w w', more w w' -> forall fs fs', frel w fs fs' -> frel w' fs fs'.
Proof. intros w w' M. induction fs as [|[x v] fs IH]; intros [|[x' v'] fs'] H; try exact H. cbn in *. destruct H as (-> & H1 & H2). repeat split; [eapply vrel_more; eassumption|now apply IH]. Qed.
Lemma erel_more : forall w w', more w w' -> forall e e', erel w e e' -> erel w' e e'.
Proof. intros w w' M e e' H. induction H; constructor; [eapply frel_more; eassumption|assumption]. Qed.
Lemma vsrel_more : forall w w', more w w' -> forall e e', vsrel w e e' -> vsrel w' e e'.
Proof. intros w w' M e e' H. induction H; constructor; [eapply vrel_more; eassumption|assumption]. Qed.
Lemma within_rel : forall S (w : world), (forall l, S l = true -> w l l) -> forall v, within S v = true -> vrel w v v.
Proof.
  intros S w M. apply (val_all (fun v => within S v = true -> vrel w v v)).
  - intros n fs IH H. apply vrel_struct. exists fs. split; [reflexivity|]. cbn [within] in H. induction IH as [|[x v] fs Hv _ IH]; [exact I|]. cbn in H. apply andb_prop in H. destruct H as [H1 H2]. cbn. repeat split; [now apply Hv|now apply IH].
  - intros r m IH H. exists r. split; [reflexivity|]. now apply IH.
  - intros v. destruct v as [t z|b|o b|rs|n [l|]|n l|n fs|f|r m|f| |e|s|t a|s]; try exact I; intros H; try reflexivity; exists l; split; auto; apply M; exact H.
Qed.
Definition plain_rel (v : val) : plain v = true -> forall w, vrel w v v.
Proof. intros H w. apply (within_rel (fun _ => false)); [discriminate|exact H]. Qed.
Lemma plain_eq : forall v, plain v = true -> forall w v', vrel w v v' -> v' = v.
Proof.
  apply (val_all (fun v => plain v = true -> forall w v', vrel w v v' -> v' = v)).
  - intros n fs IH H w v' K. apply vrel_struct in K. destruct K as (fs' & -> & K). f_equal. revert fs' K. unfold plain in H. cbn [within] in H.
    induction IH as [|[x v] fs Hv _ IH]; intros [|[x' v'] fs'] K; try contradiction; [reflexivity|]. cbn in H, K. apply andb_prop in H. destruct H as [H1 H2]. destruct K as (-> & K1 & K2). f_equal; [f_equal; eapply Hv; eassumption|now apply IH].
  - intros r m IH H w v' (r' & -> & K). f_equal. eapply IH; eassumption.
  - intros v. destruct v as [t z|b|o b|rs|n [l|]|n l|n fs|f|r m|f| |e|s|t a|s]; try exact I; intros H w v' K; try exact K; discriminate.
Qed.
(** The same, except for its addresses. *)
Ltac vcase H := lazymatch type of H with vrel _ ?v ?v' =>
  destruct v as [?t ?z|?b|?o ?b|?rs|?n [?l|]|?n ?l|?n ?fs|?f|?r ?m|?f| |?e|?s|?t ?a|?s];
  [cbn in H; subst v'|cbn in H; subst v'|cbn in H; subst v'|cbn in H; subst v'|destruct H as (?l' & -> & ?)|cbn in H; subst v'|destruct H as (?l' & -> & ?)|destruct H as (?fs' & -> & ?)|cbn in H; subst v'
  |destruct H as (?r' & -> & ?)|cbn in H; subst v'|cbn in H; subst v'|cbn in H; subst v'|cbn in H; subst v'|cbn in H; subst v'|cbn in H; subst v'] end.

Section World.
  Variable w : world.
  Lemma assoc_rel : forall x fs fs', frel w fs fs' -> match assoc x fs, assoc x fs' with Some v, Some v' => vrel w v v' | None, None => True | _, _ => False end.
  Proof. intros x. induction fs as [|[y v] fs IH]; intros [|[y' v'] fs'] H; try contradiction; [exact I|]. cbn in *. destruct H as (-> & H1 & H2). destruct (String.eqb x y'); [exact H1|now apply IH]. Qed.
  Lemma has_rel : forall x fs fs', frel w fs fs' -> has x fs = has x fs'.
  Proof. intros x fs fs' H. unfold has. pose proof (assoc_rel x fs fs' H) as A. destruct (assoc x fs), (assoc x fs'); tauto. Qed.
  Lemma put_rel : forall x v v' fs fs', vrel w v v' -> frel w fs fs' -> frel w (put x v fs) (put x v' fs').
  Proof. intros x v v' fs fs' V. revert fs'. induction fs as [|[y u] fs IH]; intros [|[y' u'] fs'] H; try contradiction; [exact I|]. cbn in *. destruct H as (-> & H1 & H2). destruct (String.eqb x y'); cbn; auto. Qed.
  Lemma get_rel : forall x e e', erel w e e' -> match get_var x e, get_var x e' with Some v, Some v' => vrel w v v' | None, None => True | _, _ => False end.
  Proof.
    intros x e e' H. induction H as [|s s' e e' Hs _ IH]; [exact I|]. cbn. pose proof (assoc_rel x s s' Hs) as A. destruct (assoc x s), (assoc x s'); try contradiction; [exact A|exact IH].
  Qed.
  Lemma set_rel : forall x v v' e e', vrel w v v' -> erel w e e' -> erel w (set_var x v e) (set_var x v' e').
  Proof. intros x v v' e e' V H. induction H as [|s s' e e' Hs He IH]; [constructor|]. cbn. rewrite <- (has_rel x s s' Hs). destruct (has x s); constructor; auto. now apply put_rel. Qed.
  Lemma add_rel : forall x v v' e e', vrel w v v' -> erel w e e' -> erel w (add_var x v e) (add_var x v' e').
  Proof. intros x v v' e e' V H. destruct H as [|s s' e e' Hs He]; cbn; constructor; try constructor; cbn; auto. Qed.
  Lemma like_rel : forall a a' b b', vrel w a a' -> vrel w b b' -> vrel w (like a b) (like a' b').
  Proof.
    intros a a' b b' A B. vcase A; try (cbn [like]; exact B).
    - vcase B; cbn [like]; try reflexivity; try (eexists; split; [reflexivity|assumption]). destruct t0; reflexivity.
    - vcase B; cbn [like]; try reflexivity; try (eexists; split; [reflexivity|assumption]).
    - vcase B; cbn [like]; try reflexivity; try (eexists; split; [reflexivity|assumption]).
    - vcase B; cbn [like]; try reflexivity; try (eexists; split; [reflexivity|assumption]).
  Qed.
  Lemma settle_rel : forall v v', vrel w v v' -> vrel w (settle v) (settle v').
  Proof. intros v v' V. vcase V; cbn [settle]; try reflexivity; try (eexists; split; [reflexivity|assumption]). destruct t; reflexivity. Qed.
  Lemma nil_rel : forall v v', vrel w v v' -> nil_val v = nil_val v'.
  Proof. intros v v' V. vcase V; reflexivity. Qed.
  Lemma binop_rel : forall op a a' b b', vrel w a a' -> vrel w b b' -> binop op a b = binop op a' b'.
  Proof.
    intros op a a' b b' A B. vcase A; vcase B; reflexivity.
  Qed.
End World.
(** * What the interpreter computes without memory *)
Ltac split_on := lazymatch goal with |- context [match ?x with _ => _ end] => destruct x end.
Definition fine (o : out val) : Prop := match o with Done r => plain r = true | _ => True end.
Lemma binop_fine : forall op a b, fine (binop op a b).
Proof.
  intros op a b. unfold binop. destruct a as [t z|b1|o1 d1|rs1|n1 l1|n1 l1|n1 fs1|f1|r1 m1|f1| |e1|s1|t1 a1|s1], b as [u y|b2|o2 d2|rs2|n2 l2|n2 l2|n2 fs2|f2|r2 m2|f2| |e2|s2|t2 a2|s2]; try exact I;
  repeat (first [exact I|reflexivity|split_on]).
Qed.
Lemma index_fine : forall v z, fine (index v z).
Proof. intros v z. unfold index. repeat (first [exact I|reflexivity|split_on]). Qed.
Lemma cut_fine : forall o b lo hi, fine (cut o b lo hi).
Proof. intros o b lo hi. unfold cut. repeat (first [exact I|reflexivity|split_on]). Qed.
Lemma index_rel : forall w v v' z, vrel w v v' -> index v z = index v' z.
Proof. intros w v v' z V. vcase V; reflexivity. Qed.
Definition fines (o : out (list val)) : Prop := match o with Done r => forallb plain r = true | _ => True end.
Lemma outs_fine : forall o r, forallb plain (out_vals o r) = true.
Proof. intros o r. unfold out_vals, tok_val, err_val. destruct (so_token r), (so_err r); reflexivity. Qed.
Definition optrel {A} (R : A -> A -> Prop) (o o' : option A) : Prop := match o, o' with Some a, Some a' => R a a' | None, None => True | _, _ => False end.

Lemma plains_rel : forall w vs, forallb plain vs = true -> vsrel w vs vs.
Proof. induction vs as [|v vs IH]; intros H; constructor; cbn in H; apply andb_prop in H; [apply plain_rel; tauto|apply IH; tauto]. Qed.
Lemma plains_eq : forall w vs vs', forallb plain vs = true -> vsrel w vs vs' -> vs' = vs.
Proof. intros w vs vs' H R. induction R as [|v v' vs vs' V R IH]; [reflexivity|]. cbn in H. apply andb_prop in H. f_equal; [eapply plain_eq; [|exact V]; tauto|apply IH; tauto]. Qed.
Definition plain_scope (s : scope) : bool := forallb (fun q => plain (snd q)) s.
Lemma scope_rel : forall w s, plain_scope s = true -> frel w s s.
Proof. induction s as [|[x v] s IH]; intros H; [exact I|]. cbn in *. apply andb_prop in H. repeat split; [apply plain_rel; tauto|apply IH; tauto]. Qed.

Section Pure.
  Variable p : program.
  Variable w : world.
  Lemma std_fine : forall f vs, fines (std p f vs).
  Proof. intros f vs. unfold std. repeat (first [exact I|reflexivity|split_on]). Qed.
  Lemma builtin_fine : forall f vs, fines (builtin p f vs).
  Proof. intros f vs. unfold builtin. repeat (first [exact I|reflexivity|split_on]). Qed.
  Lemma std_rel : forall f vs vs', vsrel w vs vs' -> std p f vs = std p f vs'.
  Proof.
    intros f vs vs' H. destruct H as [|v v' vs vs' V H]; [reflexivity|]. destruct H as [|u u' vs vs' U H].
    - vcase V; try reflexivity; unfold std; repeat (first [reflexivity|split_on]).
    - unfold std. repeat (first [reflexivity|split_on]).
  Qed.
  Lemma builtin_rel : forall f vs vs', vsrel w vs vs' -> builtin p f vs = builtin p f vs'.
  Proof.
    intros f vs vs' H. destruct H as [|v v' vs vs' V H]; [reflexivity|]. destruct H as [|u u' vs vs' U H].
    - vcase V; try reflexivity; unfold builtin; repeat (first [reflexivity|split_on]).
    - unfold builtin. repeat (first [reflexivity|split_on]).
  Qed.
  Lemma conv_rel : forall t v v', vrel w v v' -> vrel w (conv p t v) (conv p t v').
  Proof.
    intros t v v' V. vcase V; cbn [conv]; try reflexivity; try (eexists; split; [reflexivity|assumption]).
    - apply plain_rel. repeat (first [reflexivity|split_on]).
    - apply plain_rel. repeat (first [reflexivity|split_on]).
  Qed.
  Lemma zero1_rel : forall e e' t, erel w e e' -> zero1 p e t = zero1 p e' t.
  Proof.
    intros e e' t H.
    assert (G : forall x, match get_var x e with
        | Some (VType s) => Some (VData (if s then Str else NilBytes) [])
        | Some _ => None
        | None => match int_type p x with Some i => Some (VInt i 0) | None => None end
        end = match get_var x e' with
        | Some (VType s) => Some (VData (if s then Str else NilBytes) [])
        | Some _ => None
        | None => match int_type p x with Some i => Some (VInt i 0) | None => None end
        end).
    { intros x. pose proof (get_rel w x e e' H) as K. destruct (get_var x e) as [v|], (get_var x e') as [v'|]; try contradiction; [|reflexivity]. vcase K; reflexivity. }
    unfold zero1. repeat (first [reflexivity|apply G|split_on]).
  Qed.
  Definition fineo (o : option val) : Prop := match o with Some r => plain r = true | None => True end.
  Lemma zero1_fine : forall e t, fineo (zero1 p e t).
  Proof. intros e t. unfold zero1. repeat (first [exact I|reflexivity|split_on]). Qed.
  Lemma zeros_rel : forall e e' fs, erel w e e' -> zeros p e fs = zeros p e' fs.
  Proof. intros e e' fs H. induction fs as [|[x t] fs IH]; [reflexivity|]. cbn [zeros]. rewrite (zero1_rel e e' t H), IH. reflexivity. Qed.
  Lemma zeros_fine : forall e fs l, zeros p e fs = Some l -> plain_scope l = true.
  Proof.
    intros e. induction fs as [|[x t] fs IH]; intros l H; cbn [zeros] in H; [injection H as <-; reflexivity|]. pose proof (zero1_fine e t) as F. destruct (zero1 p e t) as [v|]; [|discriminate].
    destruct (zeros p e fs) as [r|]; [|discriminate]. injection H as <-. cbn. cbn in F. rewrite F. now apply IH.
  Qed.
  Lemma zero_rel : forall e e' t, erel w e e' -> zero p e t = zero p e' t.
  Proof.
    intros e e' t H. unfold zero. destruct t as [n l|t|t|]; try (apply zero1_rel; exact H). destruct (assoc n (p_structs p)); [|apply zero1_rel; exact H]. now rewrite (zeros_rel e e' _ H).
  Qed.
  Lemma zero_fine : forall e t, fineo (zero p e t).
  Proof.
    intros e t. unfold zero. destruct t as [n l|t|t|]; try apply zero1_fine. destruct (assoc n (p_structs p)) as [fs|]; [|apply zero1_fine]. destruct (zeros p e fs) as [r|] eqn:E; [|exact I].
    exact (zeros_fine e fs r E).
  Qed.
  Lemma infer_rel : forall x ps vs vs', vsrel w vs vs' -> infer x ps vs = infer x ps vs'.
  Proof.
    intros x. induction ps as [|[y t] ps IH]; intros vs vs' H; [reflexivity|]. destruct H as [|v v' vs vs' V H]; [reflexivity|]. pose proof (IH vs vs' H) as E. cbn [infer].
    vcase V; destruct t as [zz [|]|t|t|]; rewrite ?E; reflexivity.
  Qed.
  Lemma infer_fine : forall x ps vs, plain_scope (infer x ps vs) = true.
  Proof.
    intros x. induction ps as [|[y t] ps IH]; intros vs; [reflexivity|]. destruct vs as [|v vs]; [destruct t as [z [|]|t|t|]; reflexivity|]. cbn [infer].
    destruct t as [z [|]|t|t|]; try apply IH; destruct v; try apply IH. destruct (String.eqb x z); [reflexivity|apply IH].
  Qed.
  Lemma params_rel : forall ps vs vs', vsrel w vs vs' -> optrel (frel w) (params p ps vs) (params p ps vs').
  Proof.
    induction ps as [|[x t] ps IH]; intros vs vs' H; destruct H as [|v v' vs vs' V H]; cbn [params]; try exact I. pose proof (IH vs vs' H) as E. destruct (params p ps vs), (params p ps vs'); try contradiction; [|exact I].
    cbn. repeat split; [now apply conv_rel|exact E].
  Qed.
  Lemma results_rel : forall rs e e', erel w e e' -> results p rs e = results p rs e'.
  Proof.
    intros rs e e' H. induction rs as [|[x t] rs IH]; [reflexivity|]. cbn [results]. rewrite IH. destruct x as [|a x]; [reflexivity|]. rewrite (zero1_rel e e' t H). reflexivity.
  Qed.
  Lemma results_fine : forall rs e s, results p rs e = Some s -> plain_scope s = true.
  Proof.
    induction rs as [|[x t] rs IH]; intros e s H; cbn [results] in H; [injection H as <-; reflexivity|]. destruct x as [|a x]; [now apply (IH e)|].
    pose proof (zero1_fine e t) as F. destruct (zero1 p e t) as [v|]; [|discriminate]. destruct (results p rs e) as [r|] eqn:E; [|discriminate]. injection H as <-. cbn. cbn in F. rewrite F. now apply (IH e).
  Qed.
  Lemma conv_all_rel : forall rs vs vs', vsrel w vs vs' -> optrel (vsrel w) (conv_all p rs vs) (conv_all p rs vs').
  Proof.
    induction rs as [|[x t] rs IH]; intros vs vs' H; destruct H as [|v v' vs vs' V H]; cbn [conv_all]; try exact I; [constructor|]. pose proof (IH vs vs' H) as E. destruct (conv_all p rs vs), (conv_all p rs vs'); try contradiction; [|exact I].
    constructor; [now apply conv_rel|exact E].
  Qed.
  Lemma frel_app : forall a a' b b', frel w a a' -> frel w b b' -> frel w (a ++ b) (a' ++ b').
  Proof. induction a as [|[x v] a IH]; intros [|[x' v'] a'] b b' A B; try contradiction; [exact B|]. cbn in *. destruct A as (-> & A1 & A2). repeat split; auto. Qed.
  Lemma enter_rel : forall f vs vs', vsrel w vs vs' -> optrel (erel w) (enter p f vs) (enter p f vs').
  Proof.
    intros f vs vs' H. unfold enter. set (ps := match fd_recv f with Some q => [q] | None => [] end ++ fd_params f). pose proof (params_rel ps vs vs' H) as P. destruct (params p ps vs) as [s|], (params p ps vs') as [s'|]; try contradiction; [|exact I].
    assert (TY : List.concat (map (fun x => infer x ps vs) (fd_tparams f)) = List.concat (map (fun x => infer x ps vs') (fd_tparams f))). { f_equal. apply map_ext. intros x. now apply infer_rel. }
    rewrite <- TY. set (ty := List.concat _). assert (PT : plain_scope ty = true).
    { clear TY. subst ty. induction (fd_tparams f) as [|x l IH]; [reflexivity|]. cbn [map List.concat]. unfold plain_scope in *. rewrite forallb_app, IH, Bool.andb_true_r. exact (infer_fine x ps vs). }
    destruct (results p (fd_results f) [ty]) as [rs|] eqn:E; [|exact I]. constructor; [|constructor; [|constructor]]; [|now apply scope_rel]. apply frel_app; [exact P|]. apply scope_rel. eapply results_fine; exact E.
  Qed.
  Hypothesis G : forallb (fun q => plain (snd q)) (p_globals p) = true.
  Definition outrel {A} (R : A -> A -> Prop) (o o' : out A) : Prop :=
    match o, o' with Done a, Done a' => R a a' | Panics, Panics | Forever, Forever | Stuck, Stuck => True | _, _ => False end.
  Lemma name_rel : forall x e e', erel w e e' -> outrel (vrel w) (name_val p x e) (name_val p x e').
  Proof.
    intros x e e' H. unfold name_val. pose proof (get_rel w x e e' H) as K. destruct (get_var x e) as [v|], (get_var x e') as [v'|]; try contradiction; [exact K|].
    destruct (assoc x (p_globals p)) as [v|] eqn:E.
    - apply plain_rel. clear - E G. induction (p_globals p) as [|[y u] g IH]; [discriminate|]. cbn in *. apply andb_prop in G. destruct (String.eqb x y); [injection E as <-; tauto|apply IH; tauto].
    - destruct (has_fun ("", x) p); [reflexivity|]. repeat (first [exact I|reflexivity|split_on]).
  Qed.
  Lemma unknown_rel : forall x e e', erel w e e' -> unknown p x e = unknown p x e'.
  Proof. intros x e e' H. unfold unknown. pose proof (get_rel w x e e' H) as K. destruct (get_var x e), (get_var x e'); try contradiction; reflexivity. Qed.
End Pure.

(** * Computations *)
Definition ext (w : world) (l l' : nat) : world := fun a b => w a b \/ (a = l /\ b = l').
Lemma ext_more : forall (w : world) l l', more w (ext w l l'). Proof. intros w l l' a b H. now left. Qed.
Lemma ext_new : forall (w : world) l l', ext w l l' l l'. Proof. intros. now right. Qed.
Section Trel.
  Variable W : string -> bool.
  Inductive trel {A} (R : world -> A -> A -> Prop) : world -> act A -> act A -> Prop :=
  | tr_ret : forall (w : world) a a', R w a a' -> trel R w (ret a) (ret a')
  | tr_stop : forall (w : world) s, trel R w (stop s) (stop s)
  | tr_load : forall (w : world) l l' x k k', w l l' -> (forall v v', vrel w v v' -> trel R w (k v) (k' v')) -> trel R w (load l x k) (load l' x k')
  | tr_copy : forall (w : world) l l' k k', w l l' -> (forall fs fs', frel w fs fs' -> trel R w (k fs) (k' fs')) -> trel R w (copy l k) (copy l' k')
  | tr_store : forall (w : world) l l' x v v' k k', w l l' -> W x = true -> vrel w v v' -> trel R w k k' -> trel R w (store l x v k) (store l' x v' k')
  | tr_fresh : forall (w : world) o o' k k', orel w o o' -> (forall l l', trel R (ext w l l') (k l) (k' l')) -> trel R w (fresh o k) (fresh o' k').
  Lemma trel_bind : forall A B (R : world -> A -> A -> Prop) (Q : world -> B -> B -> Prop) w m m' k k', trel R w m m' ->
    (forall w', more w w' -> forall a a', R w' a a' -> trel Q w' (k a) (k' a')) -> trel Q w (tbind m k) (tbind m' k').
  Proof.
    intros A B R Q w m m' k k' H. induction H as [w a a' H|w s|w l l' x c c' L H IH|w l l' c c' L H IH|w l l' x v v' c c' L X V H IH|w o o' c c' O H IH]; intros K; cbn [tbind].
    - apply K; [apply more_refl|exact H].
    - constructor.
    - constructor; [exact L|]. intros v v' V. now apply IH.
    - constructor; [exact L|]. intros v v' V. now apply IH.
    - constructor; auto.
    - constructor; [exact O|]. intros l l'. apply IH. intros w' M. apply K. eapply more_trans; [apply ext_more|exact M].
  Qed.
  Lemma trel_pure : forall A (R : world -> A -> A -> Prop) w o o', outrel (R w) o o' -> trel R w (pure o) (pure o').
  Proof. intros A R w [a| | |] [a'| | |] H; try contradiction; constructor. exact H. Qed.
  (** A result that has no addresses. *)
  Lemma trel_fine : forall w o, fine o -> trel vrel w (pure o) (pure o).
  Proof. intros w [v| | |] H; constructor. now apply plain_rel. Qed.
  Lemma trel_fines : forall w o, fines o -> trel vsrel w (pure o) (pure o).
  Proof. intros w [v| | |] H; constructor. now apply plains_rel. Qed.
  Lemma trel_one : forall w m m', trel vsrel w m m' -> trel vrel w (tone m) (tone m').
  Proof.
    intros w m m' H. unfold tone. eapply trel_bind; [exact H|]. intros w' M vs vs' V. destruct V as [|v v' vs vs' V V2]; [constructor|]. destruct V2; constructor. exact V.
  Qed.
  Definition srel (w : world) (a a' : flow * vars) : Prop :=
    erel w (snd a) (snd a') /\ match fst a, fst a' with Ret vs, Ret vs' => vsrel w vs vs' | f, f' => f = f' end.
  Lemma srel_mk : forall w f e e', erel w e e' -> match f with Ret _ => False | _ => True end -> srel w (f, e) (f, e').
  Proof. intros w f e e' E F. split; [exact E|]. destruct f; try reflexivity. contradiction. Qed.
  Ltac nx M := eapply trel_bind; [|intros ?w M].
  Lemma trel_leave : forall w m m', trel srel w m m' -> trel srel w (tleave m) (tleave m').
  Proof.
    intros w m m' H. unfold tleave. eapply trel_bind; [exact H|]. intros w' M [f e] [f' e'] (E & F). constructor. split; [|exact F]. cbn [fst snd] in *. destruct E; [constructor|assumption].
  Qed.
  Lemma trel_declare : forall x w v v' e e', vrel w v v' -> erel w e e' -> trel erel w (tdeclare x v e) (tdeclare x v' e').
  Proof.
    intros x w v v' e e' V E. pose proof V as V0. vcase V; cbn [tdeclare]; try (constructor; apply add_rel; assumption). apply vrel_struct in V0. destruct V0 as (fs2 & Q & V0). injection Q as <-.
    constructor; [split; [reflexivity|exact V0]|]. intros l l'. constructor. apply add_rel; [exists l'; split; [reflexivity|apply ext_new]|]. eapply erel_more; [apply ext_more|exact E].
  Qed.
  Lemma trel_declare_all : forall xs w v v' e e', vrel w v v' -> erel w e e' -> trel erel w (tdeclare_all xs v e) (tdeclare_all xs v' e').
  Proof.
    induction xs as [|x xs IH]; intros w v v' e e' V E; cbn [tdeclare_all]; [now constructor|]. eapply trel_bind; [apply trel_declare; eassumption|]. intros w' M a a' A. apply IH; [eapply vrel_more; eassumption|exact A].
  Qed.
  Lemma trel_select : forall p x w v v', vrel w v v' -> trel vrel w (tselect p v x) (tselect p v' x).
  Proof.
    intros p x w v v' V. vcase V; cbn [tselect]; try constructor.
    - destruct t; [constructor|]. destruct (has_fun _ p); constructor. eexists; split; [reflexivity|reflexivity].
    - destruct (has_fun _ p); constructor; [|assumption|intros v v' V; now constructor]. exists (VPtr n (Some l')). split; [reflexivity|]. exists l'. now split.
    - destruct (has_fun _ p); constructor. exists (VPtr n None). split; reflexivity.
    - destruct (has_fun _ p); constructor; [|assumption|intros v v' V; now constructor]. exists (VPtr n (Some l')). split; [reflexivity|]. exists l'. now split.
  Qed.
  Lemma trel_loop : forall label c b q, (forall w e e', erel w e e' -> trel (fun _ => eq) w (c e) (c e')) -> (forall w e e', erel w e e' -> trel srel w (b e) (b e')) -> (forall w e e', erel w e e' -> trel srel w (q e) (q e')) ->
    forall k w e e', erel w e e' -> trel srel w (tloop k label c b q e) (tloop k label c b q e').
  Proof.
    intros label c b q C B Q. induction k as [|k IH]; intros w e e' E; cbn [tloop]; [constructor|]. eapply trel_bind; [apply C; exact E|]. intros w1 M1 a a' <-. destruct a; [|constructor; apply srel_mk; [eapply erel_more; eassumption|exact I]].
    eapply trel_bind; [apply B; eapply erel_more; eassumption|]. intros w2 M2 [f e2] [f' e2'] (E2 & F). cbn [fst snd] in *. cbv zeta.
    assert (AG : trel srel w2 (' (_, e) <~~ q e2 ;; tloop k label c b q e) (' (_, e) <~~ q e2' ;; tloop k label c b q e)).
    { eapply trel_bind; [apply Q; exact E2|]. intros w3 M3 [f3 e3] [f3' e3'] (E3 & F3). apply IH. exact E3. }
    assert (EN : trel srel w2 (ret (f, e2)) (ret (f', e2'))) by (constructor; split; assumption).
    destruct f as [|l|l|vs], f' as [|l'|l'|vs']; try discriminate; try contradiction; try injection F as <-; try exact AG; try (destruct (mine label l); [|exact EN]); try exact AG; try exact EN.
    constructor. now apply srel_mk.
  Qed.
  Lemma trel_each : forall label b, (forall z w e e', erel w e e' -> trel srel w (b z e) (b z e')) -> forall l w e e', erel w e e' -> trel srel w (teach label b l e) (teach label b l e').
  Proof.
    intros label b B. induction l as [|z l IH]; intros w e e' E; cbn [teach]; [constructor; now apply srel_mk|]. eapply trel_bind; [apply B; exact E|]. intros w2 M2 [f e2] [f' e2'] (E2 & F). cbn [fst snd] in *.
    assert (EN : trel srel w2 (ret (f, e2)) (ret (f', e2'))) by (constructor; split; assumption).
    destruct f as [|k|k|vs], f' as [|k'|k'|vs']; try discriminate; try contradiction; try injection F as <-; try (destruct (mine label k)); try exact EN; try (apply IH; exact E2).
    constructor. now apply srel_mk.
  Qed.
  Section Fun.
    Variable p : program.
    Variable tc : fid -> list val -> act (list val).
    Variable rounds : nat.
    Hypothesis G : forallb (fun q => plain (snd q)) (p_globals p) = true.
    Hypothesis TC : forall w f vs vs', vsrel w vs vs' -> trel vsrel w (tc f vs) (tc f vs').
    Lemma trel_apply : forall w f f' vs vs', vrel w f f' -> vsrel w vs vs' -> trel vsrel w (tapply tc f vs) (tapply tc f' vs').
    Proof.
      intros w f f' vs vs' F V. vcase F; cbn [tapply]; try constructor.
      - now apply TC.
      - match goal with R : vrel w r r' |- _ => pose proof R as RR; vcase R end; try constructor.
        + destruct t; [constructor|]. apply TC. constructor; assumption.
        + apply TC. constructor; assumption.
        + apply TC. constructor; assumption.
      - destruct V as [|a a' vs vs' A V]; [constructor|]. destruct V as [|b b' vs vs' B V].
        + vcase A; constructor.
        + destruct V as [|d d' vs vs' D V].
          * vcase A; try constructor. vcase B; try constructor. match goal with |- context [f ?x ?y] => destruct (f x y) end; constructor. apply plains_rel, outs_fine.
          * vcase A; try constructor. vcase B; constructor.
    Qed.
    Definition expr_rel (x : expr) : Prop := forall w e e', erel w e e' -> trel vsrel w (teval p tc x e) (teval p tc x e').
    Notation targs e := (fix args (l : list expr) : act (list val) := match l with [] => ret [] | a :: r => v <~~ tone (teval p tc a e) ;; vs <~~ args r ;; ret (v :: vs) end).
    Lemma one_ret : forall w v v', vrel w v v' -> trel vsrel w (ret [v]) (ret [v']).
    Proof. intros w v v' V. constructor. constructor; [exact V|constructor]. Qed.
    Lemma pure_ret : forall w o, fine o -> trel vsrel w (r <~~ pure o ;; ret [r]) (r <~~ pure o ;; ret [r]).
    Proof. intros w o F. eapply trel_bind; [apply trel_fine; exact F|]. intros w' M v v' V. now apply one_ret. Qed.
    Lemma trel_args : forall l, Forall expr_rel l -> forall w e e', erel w e e' -> trel vsrel w (targs e l) (targs e' l).
    Proof.
      induction 1 as [|a l Ha _ IH]; intros w e e' E; [repeat constructor|]. eapply trel_bind; [apply trel_one, Ha; exact E|]. intros w1 M1 v v' V. eapply trel_bind; [apply IH; eapply erel_more; eassumption|].
      intros w2 M2 vs vs' VS. constructor. constructor; [eapply vrel_more; eassumption|exact VS].
    Qed.
    Lemma trel_int : forall x, expr_rel x -> forall w e e', erel w e e' ->
      trel (fun _ => eq) w (u <~~ tone (teval p tc x e) ;; match u with VInt _ z => ret z | _ => stop Wedged end) (u <~~ tone (teval p tc x e') ;; match u with VInt _ z => ret z | _ => stop Wedged end).
    Proof. intros x Hx w e e' E. eapply trel_bind; [apply trel_one, Hx; exact E|]. intros w1 M1 v v' V. vcase V; constructor. reflexivity. Qed.
    Lemma trel_name : forall x w e e', erel w e e' -> trel vrel w (pure (name_val p x e)) (pure (name_val p x e')).
    Proof. intros x w e e' E. apply trel_pure. now apply name_rel. Qed.
    Lemma eval_rel : forall x, expr_rel x.
    Proof.
      apply expr_all; unfold expr_rel.
      - intros x w e e' E. cbn [teval]. eapply trel_bind; [apply trel_name; exact E|]. intros w1 M1 v v' V. pose proof V as V0. vcase V; try constructor; try (now apply one_ret); constructor; try constructor; assumption.
      - intros z w e e' E. now apply one_ret.
      - intros z w e e' E. now apply one_ret.
      - intros z w e e' E. constructor.
      - intros op a b Ha Hb w e e' E. cbn [teval]. eapply trel_bind; [apply trel_one, Ha; exact E|]. intros w1 M1 v v' V. pose proof (erel_more _ _ M1 _ _ E) as E1.
        assert (OTHER : forall o, trel vsrel w1 (u <~~ tone (teval p tc b e) ;; r <~~ pure (binop o v u) ;; ret [r]) (u <~~ tone (teval p tc b e') ;; r <~~ pure (binop o v' u) ;; ret [r])).
        { intros o. eapply trel_bind; [apply trel_one, Hb; exact E1|]. intros w2 M2 u u' U. rewrite <- (binop_rel w2 o v v' u u' (vrel_more _ _ M2 _ _ V) U). apply pure_ret, binop_fine. }
        assert (REST : trel vsrel w1 (u <~~ tone (teval p tc b e) ;; match u with VBool c => ret [VBool c] | _ => stop Wedged end) (u <~~ tone (teval p tc b e') ;; match u with VBool c => ret [VBool c] | _ => stop Wedged end)).
        { eapply trel_bind; [apply trel_one, Hb; exact E1|]. intros w2 M2 u u' U. vcase U; try constructor. constructor; [reflexivity|constructor]. }
        clear Ha Hb. vcase V; destr; first [apply OTHER|apply REST|(apply one_ret; reflexivity)|constructor].
      - intros op a Ha w e e' E. cbn [teval].
        destr; try (apply tr_stop); (eapply trel_bind; [apply trel_one, Ha; exact E|]); intros w1 M1 v v' V; pose proof V as V0; vcase V; try (apply tr_stop); try (apply one_ret; reflexivity).
        + apply vrel_struct in V0. destruct V0 as (fs2 & Q & V0). injection Q as <-. constructor; [split; [reflexivity|exact V0]|]. intros l0 l0'. apply one_ret. exists l0'. split; [reflexivity|apply ext_new].
        + constructor; [assumption|]. intros fs fs' F. apply one_ret. apply vrel_struct. exists fs'. now split.
      - intros f l Hf Hs Hl w e e' E. cbn [teval].
        destruct f as [x|z|s|t|op a b|op a|f l'|a m|a i|a lo hi|n l'|ps rs es]; try constructor.
        + eapply trel_bind; [apply trel_args; [exact Hl|exact E]|]. intros w1 M1 vs vs' V. pose proof (erel_more _ _ M1 _ _ E) as E1. rewrite <- (unknown_rel p w1 x e e' E1). destruct (unknown p x e).
          * rewrite <- (builtin_rel p w1 x vs vs' V). apply trel_fines, builtin_fine.
          * eapply trel_bind; [apply trel_name; exact E1|]. intros w2 M2 v v' V2. apply trel_apply; [exact V2|eapply vsrel_more; eassumption].
        + pose proof (Hs a m eq_refl) as Ha.
          assert (TAIL : forall w1, more w w1 -> forall v v', vrel w1 v v' -> trel vsrel w1 (u <~~ tselect p v m ;; vs <~~ targs e l ;; tapply tc u vs) (u <~~ tselect p v' m ;; vs <~~ targs e' l ;; tapply tc u vs)).
          { intros w1 M1 v v' V. eapply trel_bind; [apply trel_select; exact V|]. intros w2 M2 u u' U. eapply trel_bind; [apply trel_args; [exact Hl|]; eapply erel_more; [|exact E]; eapply more_trans; eassumption|].
            intros w3 M3 vs vs' VS. apply trel_apply; [eapply vrel_more; eassumption|exact VS]. }
          destruct a as [q| | | | | | | | | | |]; try (eapply trel_bind; [apply trel_one, Ha; exact E|exact TAIL]).
          rewrite <- (unknown_rel p w q e e' E). destruct (unknown p q e).
          * eapply trel_bind; [apply trel_args; [exact Hl|exact E]|]. intros w1 M1 vs vs' V. rewrite <- (std_rel p w1 _ vs vs' V). apply trel_fines, std_fine.
          * eapply trel_bind; [apply trel_name; exact E|exact TAIL].
      - intros a x Ha w e e' E. cbn [teval].
        assert (TAIL : forall w1, more w w1 -> forall v v', vrel w1 v v' -> trel vsrel w1 (u <~~ tselect p v x ;; ret [u]) (u <~~ tselect p v' x ;; ret [u])).
        { intros w1 M1 v v' V. eapply trel_bind; [apply trel_select; exact V|]. intros w2 M2 u u' U. now apply one_ret. }
        destruct a as [q| | | | | | | | | | |]; try (eapply trel_bind; [apply trel_one, Ha; exact E|exact TAIL]).
        rewrite <- (unknown_rel p w q e e' E). destruct (unknown p q e).
        + generalize (qual q x). intros s. destr; first [constructor; fail|apply one_ret; reflexivity|constructor].
        + eapply trel_bind; [apply trel_name; exact E|exact TAIL].
      - intros a i Ha Hi w e e' E. cbn [teval]. eapply trel_bind; [apply trel_one, Ha; exact E|]. intros w1 M1 v v' V.
        assert (TAIL : trel vsrel w1 (u <~~ tone (teval p tc i e) ;; match u with VInt _ z => r <~~ pure (index v z) ;; ret [r] | _ => stop Wedged end) (u <~~ tone (teval p tc i e') ;; match u with VInt _ z => r <~~ pure (index v' z) ;; ret [r] | _ => stop Wedged end)).
        { eapply trel_bind; [apply trel_one, Hi; eapply erel_more; eassumption|]. intros w2 M2 u u' U. vcase U; try constructor. rewrite <- (index_rel w1 v v' z V). apply pure_ret, index_fine. }
        vcase V; first [exact TAIL|apply one_ret; reflexivity].
      - intros a lo hi Ha Hlo Hhi w e e' E. cbn [teval]. eapply trel_bind; [apply trel_one, Ha; exact E|]. intros w1 M1 v v' V. pose proof (erel_more _ _ M1 _ _ E) as E1. vcase V; try constructor.
        eapply (trel_bind _ _ (fun _ => eq)).
        + destruct lo as [x|]; [|now constructor]. apply trel_int; [exact (Hlo x eq_refl)|exact E1].
        + intros w2 M2 z z' <-. pose proof (erel_more _ _ M2 _ _ E1) as E2. eapply (trel_bind _ _ (fun _ => eq)).
          * destruct hi as [x|]; [|now constructor]. apply trel_int; [exact (Hhi x eq_refl)|exact E2].
          * intros w3 M3 y y' <-. apply pure_ret, cut_fine.
      - intros n l Hl w e e' E. cbn [teval]. destruct (assoc n (p_structs p)) as [ds|]; [|constructor]. eapply (trel_bind _ _ frel).
        + clear - Hl E. revert w e e' E. induction Hl as [|[x a] l Ha _ IH]; intros w e e' E; [constructor; exact I|]. cbn [snd] in Ha. eapply trel_bind; [apply trel_one, Ha; exact E|]. intros w1 M1 v v' V. eapply (trel_bind _ _ frel); [apply IH; eapply erel_more; eassumption|].
          intros w2 M2 fs fs' F. constructor. cbn. repeat split; [eapply vrel_more; eassumption|exact F].
        + intros w1 M1 g g' F. pose proof (erel_more _ _ M1 _ _ E) as E1. eapply (trel_bind _ _ frel).
          * apply trel_pure. clear - F E1. induction ds as [|[x t] ds IH]; [exact I|]. pose proof (assoc_rel w1 x g g' F) as A. rewrite <- (zero1_rel p w1 e e' t E1).
            match goal with |- outrel _ (obind ?a _) (obind ?b _) => assert (Q : outrel (vrel w1) a b) end.
            { destruct (assoc x g), (assoc x g'); try contradiction; [cbn; now apply conv_rel|]. pose proof (zero1_fine p e t) as Z. destruct (zero1 p e t); [cbn; now apply plain_rel|exact I]. }
            match goal with |- outrel _ (obind ?a _) (obind ?b _) => destruct a as [v| | |], b as [v'| | |]; try contradiction; try exact I end. cbn [obind]. cbn in Q.
            match goal with |- outrel _ (obind ?a _) (obind ?b _) => destruct a as [vs| | |], b as [vs'| | |]; try contradiction; try exact I end. cbn in *. auto.
          * intros w2 M2 fs fs' F2. apply one_ret. apply vrel_struct. exists fs'. now split.
      - intros ps rs es w e e' E. constructor.
    Qed.
    Lemma evals_rel : forall l w e e', erel w e e' -> trel vsrel w (tevals p tc l e) (tevals p tc l e').
    Proof.
      induction l as [|a l IH]; intros w e e' E; cbn [tevals]; [repeat constructor|]. eapply trel_bind; [apply trel_one, eval_rel; exact E|]. intros w1 M1 v v' V. eapply trel_bind; [apply IH; eapply erel_more; eassumption|].
      intros w2 M2 vs vs' VS. constructor. constructor; [eapply vrel_more; eassumption|exact VS].
    Qed.
    Lemma evalm_rel : forall l w e e', erel w e e' -> trel vsrel w (tevalm p tc l e) (tevalm p tc l e').
    Proof. intros [|x [|y l]] w e e' E; [now apply (evals_rel [])|now apply eval_rel|now apply (evals_rel (x :: y :: l))]. Qed.
    Lemma assign_rel : forall l w v v' e e', forallb W (left_field l) = true -> vrel w v v' -> erel w e e' -> trel erel w (tassign l v e) (tassign l v' e').
    Proof.
      intros l w v v' e e' L V E. destruct l as [x| | | | | | |a x| | | |]; try constructor.
      - assert (O : forall y, trel erel w (match get_var y e with Some (VObj _ _) => stop Wedged | Some old => ret (set_var y (like old v) e) | None => stop Wedged end)
          (match get_var y e' with Some (VObj _ _) => stop Wedged | Some old => ret (set_var y (like old v') e') | None => stop Wedged end)).
        { intros y. pose proof (get_rel w y e e' E) as K. destruct (get_var y e) as [u|], (get_var y e') as [u'|]; try contradiction; [|constructor].
          pose proof (like_rel w u u' v v' K V) as LK. vcase K; constructor; apply set_rel; assumption. }
        unfold tassign. destr; first [apply O|constructor; exact E].
      - destruct a as [q| | | | | | | | | | |]; try constructor. cbn [tassign]. pose proof (get_rel w q e e' E) as K. destruct (get_var q e) as [u|], (get_var q e') as [u'|]; try contradiction; [|constructor].
        cbn in L. rewrite Bool.andb_true_r in L. vcase K; constructor; try assumption; now constructor.
    Qed.
    Lemma assign_all_rel : forall ls, forallb W (flat_map left_field ls) = true -> forall w vs vs' e e', vsrel w vs vs' -> erel w e e' -> trel erel w (tassign_all ls vs e) (tassign_all ls vs' e').
    Proof.
      induction ls as [|l ls IH]; intros L w vs vs' e e' V E; destruct V as [|v v' vs vs' V VS]; cbn [tassign_all]; try (constructor; assumption).
      cbn [flat_map] in L. rewrite forallb_app in L. apply andb_prop in L. eapply trel_bind; [apply assign_rel; [tauto|eassumption|exact E]|]. intros w1 M1 a a' A. apply IH; [tauto|eapply vsrel_more; eassumption|exact A].
    Qed.
    Lemma innermost_rel : forall x w e e', erel w e e' -> innermost x e = innermost x e'.
    Proof. intros x w e e' E. destruct E as [|s s' e e' S E]; [reflexivity|]. cbn. exact (has_rel w x s s' S). Qed.
    Lemma define_all_rel : forall xs w vs vs' e e', vsrel w vs vs' -> erel w e e' -> trel erel w (tdefine_all xs vs e) (tdefine_all xs vs' e').
    Proof.
      induction xs as [|x xs IH]; intros w vs vs' e e' V E; destruct V as [|v v' vs vs' V VS]; cbn [tdefine_all]; try (constructor; assumption).
      destruct (String.eqb x "_"); [now apply IH|]. rewrite <- (innermost_rel x w e e' E). destruct (innermost x e).
      - eapply trel_bind; [apply assign_rel; [reflexivity|eassumption|exact E]|]. intros w1 M1 a a' A. apply IH; [eapply vsrel_more; eassumption|exact A].
      - eapply trel_bind; [apply trel_declare; [apply settle_rel; eassumption|exact E]|]. intros w1 M1 a a' A. apply IH; [eapply vsrel_more; eassumption|exact A].
    Qed.
    Definition stmt_rel (s : stmt) : Prop := forallb W (assigned s) = true -> forall w e e', erel w e e' -> trel srel w (texec p tc rounds s e) (texec p tc rounds s e').
    Lemma block_rel0 : forall l, Forall stmt_rel l -> forallb W (flat_map assigned l) = true -> forall w e e', erel w e e' -> trel srel w (tblock p tc rounds l e) (tblock p tc rounds l e').
    Proof.
      induction 1 as [|s l Hs _ IH]; intros L w e e' E; cbn [tblock]; [constructor; now apply srel_mk|]. cbn [flat_map] in L. rewrite forallb_app in L. apply andb_prop in L. destruct L as [L1 L2].
      eapply trel_bind; [apply Hs; [exact L1|exact E]|]. intros w1 M1 [f e1] [f' e1'] (E1 & F). cbn [fst snd] in *.
      assert (EN : trel srel w1 (ret (f, e1)) (ret (f', e1'))) by (constructor; split; assumption).
      destruct f as [|k|k|vs], f' as [|k'|k'|vs']; try discriminate; try contradiction; try exact EN. now apply IH.
    Qed.
    Lemma nil_scope : forall w e e', erel w e e' -> erel w ([] :: e) ([] :: e'). Proof. intros w e e' E. constructor; [exact I|exact E]. Qed.
    Lemma scoped_rel0 : forall l, Forall stmt_rel l -> forallb W (flat_map assigned l) = true -> forall w e e', erel w e e' -> trel srel w (tscoped p tc rounds l e) (tscoped p tc rounds l e').
    Proof. intros l L A w e e' E. unfold tscoped. apply trel_leave. apply block_rel0; [exact L|exact A|]. now apply nil_scope. Qed.
    Lemma maybe_rel0 : forall o, opt stmt_rel o -> forallb W (match o with Some s => assigned s | None => [] end) = true -> forall w e e', erel w e e' -> trel srel w (tmaybe p tc rounds o e) (tmaybe p tc rounds o e').
    Proof. intros [s|] O A w e e' E; [exact (O s eq_refl A w e e' E)|]. constructor. now apply srel_mk. Qed.
    Ltac nxe := (eapply trel_bind; [apply trel_one, eval_rel; eassumption|]).
    Lemma fall_rel : forall w m m', trel erel w m m' -> trel srel w (e <~~ m ;; ret (Fall, e)) (e <~~ m' ;; ret (Fall, e)).
    Proof. intros w m m' H. eapply trel_bind; [exact H|]. intros w1 M1 a a' A. constructor. now apply srel_mk. Qed.
    Lemma cases_assigned : forall A (cs : list (A * list stmt)) d, forallb W (flat_map (fun q => flat_map assigned (snd q)) cs ++ flat_map assigned d) = true ->
      Forall (fun q => forallb W (flat_map assigned (snd q)) = true) cs /\ forallb W (flat_map assigned d) = true.
    Proof.
      intros A cs d H. rewrite forallb_app in H. apply andb_prop in H. destruct H as [H D]. split; [|exact D]. induction cs as [|q cs IH]; [constructor|]. cbn [flat_map] in H. rewrite forallb_app in H. apply andb_prop in H. constructor; [tauto|apply IH; tauto].
    Qed.
    Lemma exec_rel : forall s, stmt_rel s.
    Proof.
      apply stmt_all; unfold stmt_rel.
      - intros xs t [x|] _ w e e' E; cbn [texec].
        + nxe. intros w1 M1 v v' V. apply fall_rel. apply trel_declare_all; [now apply conv_rel|eapply erel_more; eassumption].
        + rewrite <- (zero_rel p w e e' t E). pose proof (zero_fine p e t) as Z. destruct (zero p e t) as [v|]; [|constructor]. cbn [some pure tbind]. apply fall_rel. apply trel_declare_all; [now apply plain_rel|exact E].
      - intros xs es _ w e e' E. cbn [texec]. eapply trel_bind; [apply evalm_rel; exact E|]. intros w1 M1 vs vs' V. apply fall_rel. apply define_all_rel; [exact V|eapply erel_more; eassumption].
      - intros ls es A w e e' E. cbn [texec]. eapply trel_bind; [apply evalm_rel; exact E|]. intros w1 M1 vs vs' V. apply fall_rel. apply assign_all_rel; [exact A|exact V|eapply erel_more; eassumption].
      - intros l op x A w e e' E. cbn [texec]. nxe. intros w1 M1 v v' V. pose proof (erel_more _ _ M1 _ _ E) as E1. nxe. intros w2 M2 u u' U. pose proof (erel_more _ _ M2 _ _ E1) as E2.
        rewrite <- (binop_rel w2 op v v' u u' (vrel_more _ _ M2 _ _ V) U). eapply trel_bind; [apply trel_fine, binop_fine|]. intros w3 M3 r r' R. apply fall_rel. apply assign_rel; [exact A|exact R|eapply erel_more; eassumption].
      - intros x _ w e e' E. cbn [texec]. eapply trel_bind; [apply eval_rel; exact E|]. intros w1 M1 _ _ _. constructor. apply srel_mk; [eapply erel_more; eassumption|exact I].
      - intros i c0 th el Hi Ht He A w e e' E. cbn [assigned] in A. rewrite !forallb_app in A. apply andb_prop in A. destruct A as [A1 A]. apply andb_prop in A. destruct A as [A2 A3].
        assert (U : forall e, texec p tc rounds (SIf i c0 th el) e = tleave (' (_, e) <~~ tmaybe p tc rounds i ([] :: e) ;; v <~~ tone (teval p tc c0 e) ;; match v with VBool b => if b then tscoped p tc rounds th e else tscoped p tc rounds el e | _ => stop Wedged end)) by reflexivity.
        rewrite !U. apply trel_leave. eapply trel_bind; [apply maybe_rel0; [exact Hi|exact A1|now apply nil_scope]|]. intros w1 M1 [f e1] [f' e1'] (E1 & F). cbn [fst snd] in *. nxe. intros w2 M2 v v' V. pose proof (erel_more _ _ M2 _ _ E1) as E2.
        vcase V; try constructor. destruct b; now apply scoped_rel0.
      - intros lb i c0 post body Hi Hp Hb A w e e' E. cbn [assigned] in A. rewrite !forallb_app in A. apply andb_prop in A. destruct A as [A1 A]. apply andb_prop in A. destruct A as [A2 A3].
        assert (U : forall e, texec p tc rounds (SFor lb i c0 post body) e = tleave (' (_, e) <~~ tmaybe p tc rounds i ([] :: e) ;; tloop rounds lb
                (fun e => match c0 with Some x => v <~~ tone (teval p tc x e) ;; match v with VBool b => ret b | _ => stop Wedged end | None => ret true end) (tscoped p tc rounds body) (tmaybe p tc rounds post) e)) by reflexivity.
        rewrite !U. apply trel_leave. eapply trel_bind; [apply maybe_rel0; [exact Hi|exact A1|now apply nil_scope]|]. intros w1 M1 [f e1] [f' e1'] (E1 & F). cbn [fst snd] in *. apply trel_loop; [| | |exact E1].
        + intros w2 e2 e2' E2. destruct c0 as [x|]; [|now constructor]. nxe. intros w3 M3 v v' V. vcase V; now constructor.
        + intros w2 e2 e2' E2. now apply scoped_rel0.
        + intros w2 e2 e2' E2. now apply maybe_rel0.
      - intros lb x a body Hb A w e e' E. cbn [assigned] in A.
        assert (U : forall e, texec p tc rounds (SRange lb x a body) e = (v <~~ tone (teval p tc a e) ;; match v with VRunes None => ret (Fall, e)
          | VRunes (Some l) => teach lb (fun z e => tleave (tscoped p tc rounds body ([(x, VInt trune z)] :: e))) l e | _ => stop Wedged end)) by reflexivity.
        rewrite !U. nxe. intros w1 M1 v v' V. pose proof (erel_more _ _ M1 _ _ E) as E1. vcase V; try constructor. destruct rs as [l|]; [|constructor; now apply srel_mk]. apply trel_each; [|exact E1].
        intros z w2 e2 e2' E2. apply trel_leave. apply scoped_rel0; [exact Hb|exact A|]. constructor; [|exact E2]. cbn. repeat split.
      - intros cs t d Hc Hd A w e e' E. cbn [assigned] in A. apply cases_assigned in A. destruct A as [A1 A2].
        pose (thits := fun (t : val) (e : vars) => fix any (xs : list expr) : act bool :=
                match xs with
                | [] => ret false
                | x :: xs => v <~~ tone (teval p tc x e) ;; m <~~ pure (binop "==" t v) ;; match m with VBool true => ret true | VBool false => any xs | _ => stop Wedged end
                end).
        pose (tclauses := fun (t : val) (e : vars) => fix pick (cs : list (list expr * list stmt)) : act (flow * vars) :=
           match cs with
           | [] => tscoped p tc rounds d e
           | (xs, b) :: r => hit <~~ thits t e xs ;; if hit : bool then tscoped p tc rounds b e else pick r
           end).
        assert (U : forall e, texec p tc rounds (SSwitch cs t d) e = (tleave (t <~~ match t with Some x => tone (teval p tc x e) | None => ret (VBool true) end ;; 
          ' (f, e) <~~ tclauses t ([] :: e) cs ;; match f with Brk "" => ret (Fall, e) | _ => ret (f, e) end))) by reflexivity.
        rewrite !U. apply trel_leave. eapply (trel_bind _ _ vrel); [destruct t as [x|]; [apply trel_one, eval_rel; exact E|constructor; reflexivity]|]. intros w1 M1 v v' V. pose proof (nil_scope _ _ _ (erel_more _ _ M1 _ _ E)) as E1.
        assert (HIT : forall xs w v v' e e', vrel w v v' -> erel w e e' -> trel (fun _ => eq) w (thits v e xs) (thits v' e' xs)).
        { clear - G TC. induction xs as [|x xs IH]; intros w v v' e e' V E; [now constructor|]. cbn [thits]. nxe. intros w1 M1 u u' U. pose proof (vrel_more _ _ M1 _ _ V) as V1. rewrite <- (binop_rel w1 "==" v v' u u' V1 U).
          eapply trel_bind; [apply trel_fine, binop_fine|]. intros w2 M2 m m' M. vcase M; try constructor. destruct b; [now constructor|]. apply IH; [eapply vrel_more; eassumption|eapply erel_more; [|exact E]; eapply more_trans; eassumption]. }
        eapply (trel_bind _ _ srel).
        + clear - HIT Hc Hd A1 A2 V E1. revert w1 V E1. generalize ([] :: e) ([] :: e'). clear e e'. intros e e'. induction Hc as [|[xs b] cs Hb _ IH]; intros w1 V E1; [now apply scoped_rel0|]. inversion A1 as [|q r B1 B2]; subst. cbn [snd] in *.
          change (trel srel w1 (hit <~~ thits v e xs ;; if hit : bool then tscoped p tc rounds b e else tclauses v e cs) (hit <~~ thits v' e' xs ;; if hit : bool then tscoped p tc rounds b e' else tclauses v' e' cs)).
          eapply (trel_bind _ _ (fun _ => eq)); [now apply HIT|]. intros w2 M2 h h' <-. pose proof (erel_more _ _ M2 _ _ E1) as E2. destruct h; [now apply scoped_rel0|]. apply IH; [exact B2|eapply vrel_more; eassumption|exact E2].
        + intros w2 M2 [f e2] [f' e2'] (E2 & F). cbn [fst snd] in *. assert (EN : trel srel w2 (ret (f, e2)) (ret (f', e2'))) by (constructor; split; assumption).
          destruct f as [|k|k|vs], f' as [|k'|k'|vs']; try discriminate; try contradiction; try exact EN. injection F as <-. destruct k; [constructor; now apply srel_mk|exact EN].
      - intros x a cs d Hc Hd A w e e' E. cbn [assigned] in A. apply cases_assigned in A. destruct A as [A1 A2].
        destruct a as [| | | | | |f l| | | | |]; try constructor. destruct f as [s| | | | | | | | | | |]; try constructor.
        destruct (String.eqb s "any") eqn:Q.
        + apply String.eqb_eq in Q. subst s. destruct l as [|a [|]]; try constructor.
          pose (tpick := fun (o : origin) (v : val) (e : vars) => fix pick (cs : list (ty * list stmt)) : act (flow * vars) :=
             match cs with
             | [] => tscoped p tc rounds d ([(x, v)] :: e)
             | (t, b) :: r =>
               if match t, o with TyName "string" [], Str | TySlice (TyName "byte" []), Bytes | TySlice (TyName "byte" []), NilBytes => true | _, _ => false end
               then tscoped p tc rounds b ([(x, v)] :: e) else pick r
             end).
          assert (U : forall e, texec p tc rounds (STypeSwitch x (ECall (EId "any") [a]) cs d) e = (v <~~ tone (teval p tc a e) ;; match v with VData o _ => tleave (tpick o v e cs) | _ => stop Wedged end)) by reflexivity.
          rewrite !U. nxe. intros w1 M1 v v' V. pose proof (erel_more _ _ M1 _ _ E) as E1. vcase V; try constructor. apply trel_leave.
          assert (E2 : erel w1 ([(x, VData o b)] :: e) ([(x, VData o b)] :: e')). { constructor; [cbn; repeat split|exact E1]. }
          clear - Hc Hd A1 A2 E2. induction Hc as [|[t b1] cs Hb _ IH]; [now apply scoped_rel0|]. inversion A1 as [|q r B1 B2]; subst. cbn [snd] in *. cbn [tpick].
          destruct (match t, o with TyName "string" [], Str | TySlice (TyName "byte" []), Bytes | TySlice (TyName "byte" []), NilBytes => true | _, _ => false end); [now apply scoped_rel0|now apply IH].
        + assert (T : forall e, texec p tc rounds (STypeSwitch x (ECall (EId s) l) cs d) e = stop Wedged).
          { intros e0. cbn [texec]. revert Q. clear. intros Q. destr; try reflexivity; cbn in Q; discriminate. }
          rewrite !T. constructor.
      - intros l _ w e e' E. constructor. now apply srel_mk.
      - intros l _ w e e' E. constructor. now apply srel_mk.
      - intros es _ w e e' E. cbn [texec]. eapply trel_bind; [apply evalm_rel; exact E|]. intros w1 M1 vs vs' V. constructor. split; [eapply erel_more; eassumption|exact V].
    Qed.
    Lemma block_rel : forall l, forallb W (flat_map assigned l) = true -> forall w e e', erel w e e' -> trel srel w (tblock p tc rounds l e) (tblock p tc rounds l e').
    Proof. intros l A. apply block_rel0; [|exact A]. apply Forall_forall. intros s _. apply exec_rel. Qed.
    Lemma run_fun_rel : forall f, forallb W (flat_map assigned (fd_body f)) = true -> forall w vs vs', vsrel w vs vs' -> trel vsrel w (trun_fun p tc rounds f vs) (trun_fun p tc rounds f vs').
    Proof.
      intros f A w vs vs' V. unfold trun_fun. eapply (trel_bind _ _ erel).
      - apply trel_pure. pose proof (enter_rel p w f vs vs' V) as K. destruct (enter p f vs), (enter p f vs'); try contradiction; [exact K|exact I].
      - intros w1 M1 e e' E. eapply trel_bind; [apply block_rel; [exact A|exact E]|]. intros w2 M2 [r e2] [r' e2'] (E2 & F). cbn [fst snd] in *. destruct r as [|l|l|us], r' as [|l'|l'|us']; try discriminate; try contradiction; try constructor.
        + destruct (fd_results f); constructor. constructor.
        + apply trel_pure. pose proof (conv_all_rel p w2 (fd_results f) us us' F) as K. destruct (conv_all p (fd_results f) us), (conv_all p (fd_results f) us'); try contradiction; [exact K|exact I].
    Qed.
  End Fun.
  Theorem call_rel : forall p rounds, tame W p = true -> forall depth w f vs vs', vsrel w vs vs' -> trel vsrel w (tcall p rounds depth f vs) (tcall p rounds depth f vs').
  Proof.
    intros p rounds T. unfold tame in T. apply andb_prop in T. destruct T as [G A]. induction depth as [|d IH]; intros w f vs vs' V; cbn [tcall]; [constructor|].
    destruct (find_fun f (p_funs p)) as [fd|] eqn:E; [|constructor]. apply run_fun_rel; [exact G|exact IH| |exact V].
    clear - A E. unfold program_assigned in A. revert E. induction (p_funs p) as [|[g fd'] l IH]; [discriminate|]. cbn [find_fun flat_map] in *. rewrite forallb_app in A. apply andb_prop in A. destruct A as [A1 A2]. cbn [snd] in A1.
    destruct (fid_eqb f g); intros E; [injection E as <-; exact A1|now apply IH].
  Qed.
End Trel.
