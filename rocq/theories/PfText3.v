(** Files: proofs. *)

From Coq Require Import Reals ZArith Strings.String Strings.Ascii List Bool Lia Lra.
From Verif Require Import Num NumX Vec SpecReal TinyObj SpecObj SpecObjMesh ObjText SpecText PfX PfText PfText2.
Import ListNotations.
Local Open Scope string_scope.
Local Open Scope list_scope.

(** ** Lines of a file *)

Lemma trim_none c s : (forall s', s <> s' ++ String c "")%string -> trim_last c s = s.
Proof.
  induction s as [|d s IH]; intros H; [reflexivity|]. cbn [trim_last]. destruct s as [|e s].
  - destruct (Ascii.eqb d c) eqn:E; [|reflexivity]. apply Ascii.eqb_eq in E. subst. exfalso. exact (H "" eq_refl).
  - f_equal. apply IH. intros s' Hs. apply (H (String d s')). cbn [append]. rewrite Hs. reflexivity.
Qed.
Lemma trim_cr c s : trim_last c (s ++ String c "") = s.
Proof.
  induction s as [|d s IH].
  - cbn [append trim_last]. rewrite Ascii.eqb_refl. reflexivity.
  - cbn [append trim_last]. destruct (s ++ String c "")%string eqn:E; [destruct s; discriminate|]. rewrite IH. reflexivity.
Qed.
Lemma no_char_end c s : ~ In c (list_ascii_of_string s) -> forall s', s <> (s' ++ String c "")%string.
Proof. intros H s' E. apply H. rewrite E. apply chars_app. right. left. reflexivity. Qed.

Definition line_end_text (e : line_end) : string := match e with Unix => "" | Dos => String "013" "" end.
Lemma line_of_line l e : clean l -> (forall s, l <> s ++ String "013" "")%string -> line_of (l ++ line_end_text e) = l.
Proof.
  intros Hc Hl. unfold line_of.
  assert (U : upto is_nul (l ++ line_end_text e) = (l ++ line_end_text e)%string).
  { rewrite <- (app_nil (l ++ line_end_text e)) at 1. apply upto_none; [|exact I]. apply none_app. split.
    - intros c H. unfold is_nul. apply Ascii.eqb_neq. exact (proj1 (Hc c H)).
    - destruct e; [intros c []|]. intros c [<-|[]]. reflexivity. }
  rewrite U. rewrite (trim_none LF).
  2:{ apply no_char_end. intros H. apply chars_app in H. destruct H as [H|H].
      - exact (proj2 (Hc _ H) eq_refl).
      - destruct e; [destruct H|]. destruct H as [H|[]]. discriminate. }
  destruct e; cbn [line_end_text].
  - rewrite app_nil. apply trim_none. exact Hl.
  - apply trim_cr.
Qed.

Lemma getline_line l e s : clean l -> (Z.of_nat (String.length l) <= 8190)%Z ->
  getline (l ++ end_text e ++ s) = ((l ++ line_end_text e)%string, Left s).
Proof.
  intros Hc Hl. unfold getline.
  assert (E : (l ++ end_text e ++ s)%string = ((l ++ line_end_text e) ++ String LF s)%string)
    by (rewrite app_app; f_equal; destruct e; reflexivity).
  assert (N : none_ is_lf (l ++ line_end_text e)).
  { apply none_app. split.
    - intros c H. unfold is_lf. apply Ascii.eqb_neq. exact (proj2 (Hc c H)).
    - destruct e; [intros c []|]. intros c [<-|[]]. reflexivity. }
  rewrite E, upto_none, after_none by (exact N || reflexivity). cbn [next].
  rewrite (proj2 (Z.ltb_ge _ _)); [reflexivity|]. rewrite len_app. destruct e; cbn [line_end_text String.length]; lia.
Qed.
Lemma getline_last l : clean l -> (Z.of_nat (String.length l) <= 8190)%Z -> getline l = (l, Ended).
Proof.
  intros Hc Hl. unfold getline.
  assert (N : none_ is_lf l) by (intros c H; unfold is_lf; apply Ascii.eqb_neq; exact (proj2 (Hc c H))).
  pose proof (upto_none is_lf l "" N I) as U. pose proof (after_none is_lf l "" N I) as A. rewrite app_nil in U, A. rewrite U, A.
  rewrite (proj2 (Z.ltb_ge _ _)) by lia. reflexivity.
Qed.

Lemma lines_step fuel s : s <> "" -> lines_loop (S fuel) s =
  let (buf, st) := getline s in
  match st with
  | Left s' => bind (lines_loop fuel s') (fun p => let (l, bad) := p in Ok (line_of buf :: l, bad))
  | Ended | Failed => Ok ([line_of buf], true)
  end.
Proof. intros H. destruct s; [contradiction|]. reflexivity. Qed.
Lemma lines_read text ls w : file_text text ls w -> forall fuel, (String.length text < fuel)%nat ->
  lines_loop fuel text = Ok (ls, negb w).
Proof.
  induction 1 as [|l Hc Hn Hl Hcr|l e s ls w Hc Hl Hcr Ht IH]; intros fuel Hf.
  - destruct fuel as [|fuel]; [inversion Hf|]. reflexivity.
  - destruct fuel as [|fuel]; [inversion Hf|]. rewrite lines_step by exact Hn. rewrite getline_last by assumption.
    pose proof (line_of_line l Unix Hc Hcr) as L. cbn [line_end_text] in L. rewrite app_nil in L. rewrite L. reflexivity.
  - destruct fuel as [|fuel]; [inversion Hf|]. rewrite lines_step; [|destruct l; [destruct e|]; discriminate].
    rewrite getline_line by assumption. rewrite IH.
    + cbn [bind]. rewrite line_of_line by assumption. reflexivity.
    + rewrite !len_app in Hf. destruct e; cbn [end_text String.length] in Hf; lia.
Qed.
Theorem file_lines_read text ls w : file_text text ls w -> file_lines text = Ok (ls, negb w).
Proof. intros H. apply lines_read; [exact H|lia]. Qed.

(** ** Commands of a file *)

Lemma Forall2_in_r {A B} (P : A -> B -> Prop) l l' b : Forall2 P l l' -> In b l' -> exists a, In a l /\ P a b.
Proof.
  induction 1 as [|x y l l' H Hl IH]; intros Hb; [destruct Hb|]. destruct Hb as [<-|Hb].
  - exists x. split; [left; reflexivity|exact H].
  - destruct (IH Hb) as (a & Ha & Hp). exists a. split; [right; exact Ha|exact Hp].
Qed.
Lemma Forall2_in_l {A B} (P : A -> B -> Prop) l l' a : Forall2 P l l' -> In a l -> exists b, In b l' /\ P a b.
Proof.
  induction 1 as [|x y l l' H Hl IH]; intros Ha; [destruct Ha|]. destruct Ha as [<-|Ha].
  - exists y. split; [left; reflexivity|exact H].
  - destruct (IH Ha) as (b & Hb & Hp). exists b. split; [right; exact Hb|exact Hp].
Qed.

Lemma Forall2_length {A B} (P : A -> B -> Prop) l l' : Forall2 P l l' -> length l = length l'.
Proof. induction 1; cbn [length]; congruence. Qed.

Section Files.
Context (big tiny eps : R).
Local Instance XN : num xr := Xnum big tiny eps.
Variable pow_ : Z -> Z -> xr.
Variable ldexp_ : xr -> Z -> xr.
Variable to_float : xr -> xr.
Hypothesis Hpow : pow_exact pow_.
Hypothesis Hldexp : ldexp_exact ldexp_.
Hypothesis Hfloat : float_exact to_float.
Variable files : string -> option string.

Lemma mlines_reads ls ms : Forall2 mline_says ls ms ->
  exists ms', parse_mlines pow_ ldexp_ to_float ls = Ok ms' /\ Forall2 same_mcmd ms' ms.
Proof.
  induction 1 as [|l m ls ms H Hl (ms' & E & IH)]; [exists []; split; [reflexivity|constructor]|].
  destruct (mline_reads big tiny eps pow_ ldexp_ to_float Hpow Hldexp Hfloat l m H) as (m' & E' & Hm).
  exists (m' :: ms'). split; [|constructor; assumption]. cbn [parse_mlines].
  change (PfText2.XN big tiny eps) with XN in E'. rewrite E', E. reflexivity.
Qed.
Theorem library_reads name o : library files name o ->
  exists o', read_mtl pow_ ldexp_ to_float files name = Ok o' /\ same_library o' o.
Proof.
  unfold library, read_mtl. destruct (files name) as [t|]; [|intros ->; exists None; split; [reflexivity|exact I]].
  intros (ms & (ls & Ht & Hl) & ->). rewrite (file_lines_read _ _ _ Ht). cbn [bind negb].
  destruct (mlines_reads ls ms Hl) as (ms' & -> & H). cbn [bind]. exists (Some ms'). split; [reflexivity|exact H].
Qed.

(** Reading the commands one after the other. *)
Lemma text_lines (mtl' : string -> option (list (mcmd xr))) base ls cs' :
  Forall2 (fun l c => parse_line pow_ ldexp_ to_float true l = Ok c) ls cs' ->
  (forall n, In (OMtlLib n) cs' -> read_mtl pow_ ldexp_ to_float files (base ++ n) = Ok (mtl' n)) ->
  forall r, read_text_lines pow_ ldexp_ to_float files true base r ls = read_lines mtl' r cs'.
Proof.
  induction 1 as [|l c ls cs' H Hl IH]; intros Hm r; [reflexivity|].
  cbn [read_text_lines read_lines]. rewrite H. cbn [bind].
  assert (E : forall n, c = OMtlLib n -> read_mtl pow_ ldexp_ to_float files (base ++ n) = Ok (mtl' n))
    by (intros n ->; apply Hm; left; reflexivity).
  assert (IH' : forall r, read_text_lines pow_ ldexp_ to_float files true base r ls = read_lines mtl' r cs')
    by (apply IH; intros n Hn; apply Hm; right; exact Hn).
  destruct c; try (rewrite (E _ eq_refl)); cbn [bind read_line];
    repeat match goal with |- context [bind ?a _] => destruct a; cbn [bind]; try reflexivity end; try apply IH'.
  all: match goal with a : option _ |- _ => destruct a; [apply IH'|reflexivity] end.
Qed.
Lemma text_lines_plain mtl' base ls cs' :
  Forall2 (fun l c => parse_line pow_ ldexp_ to_float false l = Ok (plain c)) ls cs' ->
  forall r, read_text_lines pow_ ldexp_ to_float files false base r ls = read_lines mtl' r (map plain cs').
Proof.
  induction 1 as [|l c ls cs' H Hl IH]; intros r; [reflexivity|].
  cbn [read_text_lines read_lines map]. rewrite H. cbn [bind].
  destruct c; cbn [plain bind read_line];
    repeat match goal with |- context [bind ?a _] => destruct a; cbn [bind]; try reflexivity end; try apply IH.
  all: match goal with a : option _ |- _ => destruct a; [apply IH|reflexivity] end.
Qed.

Definition read_library (base n : string) : option (list (mcmd xr)) :=
  match read_mtl pow_ ldexp_ to_float files (base ++ n) with Ok o => o | _ => None end.

Lemma commands_read ls cs : Forall2 line_says ls cs -> exists cs',
  Forall2 (fun l c => parse_line pow_ ldexp_ to_float true l = Ok c) ls cs' /\
  Forall2 (fun l c => parse_line pow_ ldexp_ to_float false l = Ok (plain c)) ls cs' /\ Forall2 same_cmd cs' cs.
Proof.
  induction 1 as [|l c ls cs H Hl (cs' & H1 & H2 & H3)]; [exists []; repeat split; constructor|].
  destruct (line_reads big tiny eps pow_ ldexp_ to_float Hpow Hldexp Hfloat l c H) as (c' & E1 & E2 & E3).
  exists (c' :: cs'). split; [|split]; constructor; assumption.
Qed.

Theorem file_reads base text cs : file_says text cs ->
  exists cs', Forall2 same_cmd cs' cs /\
    (forall mtl, libraries files base mtl cs ->
      (forall n, In (OMtlLib n) cs -> same_library (read_library base n) (mtl n)) /\
      load_text pow_ ldexp_ to_float files base text = load_obj (read_library base) cs' /\
      forall scale, load_mesh_text pow_ ldexp_ to_float files base scale text = load_mesh (read_library base) scale cs') /\
    (forall mtl', load_text_plain pow_ ldexp_ to_float files text = load_obj_plain mtl' cs' /\
      load_plain_text pow_ ldexp_ to_float files text = load_plain mtl' cs').
Proof.
  intros (ls & w & Ht & Hs). destruct (commands_read ls cs Hs) as (cs' & H1 & H2 & H3). exists cs'. split; [exact H3|].
  pose proof (file_lines_read _ _ _ Ht) as E. split.
  - intros mtl Hlib.
    assert (R : forall n, In (OMtlLib n) cs -> read_mtl pow_ ldexp_ to_float files (base ++ n) = Ok (read_library base n) /\ same_library (read_library base n) (mtl n)).
    { intros n Hn. destruct (library_reads _ _ (Hlib n Hn)) as (o' & Eo & Ho). unfold read_library. rewrite Eo. split; [reflexivity|exact Ho]. }
    assert (L : load_text pow_ ldexp_ to_float files base text = load_obj (read_library base) cs').
    { unfold load_text, load_obj. rewrite E. cbn [bind]. rewrite (text_lines (read_library base) base ls cs' H1); [reflexivity|].
      intros n Hn. destruct (Forall2_in_l _ _ _ _ H3 Hn) as (b & Hb & Sb). inversion Sb; subst. exact (proj1 (R n Hb)). }
    split; [intros n Hn; exact (proj2 (R n Hn))|]. split; [exact L|].
    intros scale. unfold load_mesh_text, load_mesh. rewrite L. reflexivity.
  - intros mtl'.
    assert (L : load_text_plain pow_ ldexp_ to_float files text = load_obj_plain mtl' cs').
    { unfold load_text_plain, load_obj_plain. rewrite E. cbn [bind]. rewrite (text_lines_plain mtl' "" ls cs' H2). reflexivity. }
    split; [exact L|]. unfold load_plain_text, load_plain. rewrite L. reflexivity.
Qed.
End Files.

(** ** The same file over the reals *)

Section Same.
Variable mtl' : string -> option (list (mcmd xr)).
Variable mtl : string -> option (list (mcmd R)).

Lemma same_names ms' ms : Forall2 same_mcmd ms' ms -> new_names ms' = new_names ms.
Proof.
  induction 1 as [|m' m ms' ms H Hl IH]; [reflexivity|]. unfold new_names in *. cbn [flat_map]. rewrite IH.
  destruct H; reflexivity.
Qed.
Lemma same_names_of ms' ms : Forall2 same_mcmd ms' ms -> names_of ms' = names_of ms.
Proof. intros H. unfold names_of. rewrite (same_names _ _ H). reflexivity. Qed.
Definition lib_names {T} (o : option (list (mcmd T))) : list string := match o with Some ms => names_of ms | None => [] end.
Lemma same_lib_names o' o : same_library o' o -> lib_names o' = lib_names o.
Proof. destruct o', o; cbn; try tauto. apply same_names_of. Qed.

Lemma same_well_formed cs' cs : Forall2 same_cmd cs' cs ->
  (forall n, In (OMtlLib n) cs -> same_library (mtl' n) (mtl n)) ->
  forall nv nt nn, well_formed mtl nv nt nn cs -> well_formed mtl' nv nt nn cs'.
Proof.
  induction 1 as [|c' c cs' cs H Hl IH]; intros Hm nv nt nn Hw; [exact I|].
  assert (IH' := IH (fun n Hn => Hm n (or_intror Hn))).
  destruct H; cbn [well_formed] in *; try (apply IH'; exact Hw).
  - destruct Hw as (H1 & H2 & H3). split; [exact H1|]. split; [exact H2|]. apply IH', H3.
  - destruct Hw as ((ms & E & Hn) & Hw). split; [|apply IH', Hw].
    specialize (Hm n (or_introl eq_refl)). rewrite E in Hm. destruct (mtl' n) as [ms'|]; [|destruct Hm].
    exists ms'. split; [reflexivity|]. rewrite (same_names _ _ Hm). exact Hn.
Qed.
Lemma same_uniform cs' cs : Forall2 same_cmd cs' cs -> forall b, uniform_shapes b cs -> uniform_shapes b cs'.
Proof.
  induction 1 as [|c' c cs' cs H Hl IH]; intros b Hw; [exact I|].
  destruct H; cbn [uniform_shapes] in *; try (apply IH; exact Hw).
  destruct Hw as (b' & H1 & H2 & H3). exists b'. split; [exact H1|]. split; [exact H2|]. apply IH, H3.
Qed.
Lemma same_triangles cs' cs : Forall2 same_cmd cs' cs ->
  (forall n, In (OMtlLib n) cs -> same_library (mtl' n) (mtl n)) ->
  forall nv nt names m, triangles mtl' nv nt names m cs' = triangles mtl nv nt names m cs.
Proof.
  induction 1 as [|c' c cs' cs H Hl IH]; intros Hm nv nt names m; [reflexivity|].
  assert (IH' := IH (fun n Hn => Hm n (or_intror Hn))).
  destruct H; cbn [triangles]; try apply IH'; [rewrite IH'; reflexivity|].
  fold (lib_names (mtl' n)) (lib_names (mtl n)). rewrite (same_lib_names _ _ (Hm n (or_introl eq_refl))). apply IH'.
Qed.
Lemma same_file_names cs' cs : Forall2 same_cmd cs' cs ->
  (forall n, In (OMtlLib n) cs -> same_library (mtl' n) (mtl n)) -> file_names mtl' cs' = file_names mtl cs.
Proof.
  induction 1 as [|c' c cs' cs H Hl IH]; intros Hm; [reflexivity|].
  assert (IH' := IH (fun n Hn => Hm n (or_intror Hn))). unfold file_names in *. cbn [flat_map]. rewrite IH'. f_equal.
  destruct H; try reflexivity. exact (same_lib_names _ _ (Hm n (or_introl eq_refl))).
Qed.
Lemma same_vertices cs' cs : Forall2 same_cmd cs' cs -> Forall2 visR (vertices_of cs') (vertices_of cs).
Proof.
  induction 1 as [|c' c cs' cs H Hl IH]; [constructor|]. unfold vertices_of in *. cbn [flat_map].
  destruct H; cbn [app]; try exact IH. constructor; [|exact IH]. split; [assumption|]. split; assumption.
Qed.
Lemma same_texcoords cs' cs : Forall2 same_cmd cs' cs ->
  Forall2 (fun p q => isR (fst p) (fst q) /\ isR (snd p) (snd q)) (texcoords_of cs') (texcoords_of cs).
Proof.
  induction 1 as [|c' c cs' cs H Hl IH]; [constructor|]. unfold texcoords_of in *. cbn [flat_map].
  destruct H; cbn [app]; try exact IH. constructor; [|exact IH]. split; assumption.
Qed.
Lemma same_normals cs' cs : Forall2 same_cmd cs' cs -> normals_in cs' = normals_in cs.
Proof.
  intros H. unfold normals_in. f_equal. induction H as [|c' c cs' cs H Hl IH]; [reflexivity|].
  cbn [flat_map]. rewrite IH. destruct H; reflexivity.
Qed.
Lemma same_small cs' cs : Forall2 same_cmd cs' cs ->
  (forall n, In (OMtlLib n) cs -> same_library (mtl' n) (mtl n)) -> small_file mtl cs -> small_file mtl' cs'.
Proof.
  intros H Hm (H1 & H2 & H3 & H4 & H5). unfold small_file, count in *.
  rewrite (Forall2_length _ _ _ (same_vertices _ _ H)), (Forall2_length _ _ _ (same_texcoords _ _ H)), (same_normals _ _ H), (same_file_names _ _ H Hm).
  unfold file_triangles in *. rewrite (same_triangles _ _ H Hm). repeat split; assumption.
Qed.
Lemma same_points cs' cs : Forall2 same_cmd cs' cs -> points (fun p => p) (vertices_of cs') (point_of cs).
Proof.
  intros H. pose proof (same_vertices _ _ H) as V. unfold points, point_of. intros j p. rewrite Nat2Z.id. revert j p.
  induction V as [|x y l l' Hx Hl IH]; intros j p Hj; [destruct j; discriminate|].
  destruct j as [|j]; cbn [nth_error nth] in *; [injection Hj as <-; exact Hx|]. apply IH, Hj.
Qed.
End Same.

Theorem file_reads_ex big tiny eps pow_ ldexp_ to_float : pow_exact pow_ -> ldexp_exact ldexp_ -> float_exact to_float ->
  forall files base text cs, file_says text cs ->
  exists cs', Forall2 same_cmd cs' cs /\
    (forall mtl, libraries files base mtl cs -> exists mtl',
      (forall n, In (OMtlLib n) cs -> same_library (mtl' n) (mtl n)) /\
      @load_text _ (Xnum big tiny eps) pow_ ldexp_ to_float files base text = @load_obj _ (Xnum big tiny eps) mtl' cs' /\
      forall scale, @load_mesh_text _ (Xnum big tiny eps) pow_ ldexp_ to_float files base scale text = @load_mesh _ (Xnum big tiny eps) mtl' scale cs') /\
    (forall mtl', @load_text_plain _ (Xnum big tiny eps) pow_ ldexp_ to_float files text = @load_obj_plain _ (Xnum big tiny eps) mtl' cs' /\
      @load_plain_text _ (Xnum big tiny eps) pow_ ldexp_ to_float files text = @load_plain _ (Xnum big tiny eps) mtl' cs').
Proof.
  intros Hp Hl Hf files base text cs H.
  destruct (file_reads big tiny eps pow_ ldexp_ to_float Hp Hl Hf files base text cs H) as (cs' & H1 & H2 & H3).
  exists cs'. split; [exact H1|]. split; [|exact H3]. intros mtl Hm.
  exists (read_library big tiny eps pow_ ldexp_ to_float files base). exact (H2 mtl Hm).
Qed.
