(** Texts printed for concrete objects. *)

From Coq Require Import ZArith Strings.String Strings.Ascii List Bool Lia Floats.SpecFloat.
From Verif Require Import Num NumF Vec Datatypes Ray Bvh Sphere Plane Cylinder Trimesh Scene Embree Mains SpecMain PfMain Print SpecJson SpecPrint PfBuild PfJson PfPrint PfPrint2.
Import ListNotations.
Local Open Scope string_scope.
Local Open Scope list_scope.

(** Characters of a printed number. *)
Lemma codes_of l : Forall ascii_digit l -> codes (of_codes l) = l.
Proof.
  induction 1 as [|z l Hz _ IH]; [reflexivity|]. cbn [of_codes codes]. rewrite IH. f_equal. unfold ascii_digit in Hz.
  rewrite N_ascii_embedding by lia. lia.
Qed.
Lemma nat_decimal n : fits n -> decimal_of (Z.of_nat n) (codes (show_nat n)).
Proof.
  unfold fits. intros H. assert (D := print_size_ok (Z.of_nat n) ltac:(lia)). unfold show_nat, dec. rewrite codes_of; [exact D|exact (proj1 (proj2 D))].
Qed.

(** A stream for small whole numbers. *)
Definition show_whole (x : spec_float) : string :=
  match x with
  | S754_zero _ => "0"
  | S754_infinity _ => "inf"
  | S754_nan => "nan"
  | S754_finite s m e => if s then String "-" (dec (Z.shiftl (Zpos m) e mod 1000)) else dec (Z.shiftl (Zpos m) e mod 1000)
  end.
Lemma letters_word s : forallb (fun c => negb (is_space c) && negb (is_punct c) && negb (is_quote c)) (list_ascii_of_string s) = true ->
  s <> EmptyString -> word s.
Proof.
  intros H Hs. split; [exact Hs|]. intros c Hc. rewrite forallb_forall in H. specialize (H c Hc).
  destruct (is_space c), (is_punct c), (is_quote c); try discriminate; repeat split.
Qed.
Lemma whole_word x : word (show_whole x).
Proof.
  assert (D : forall m e, word (dec (Z.shiftl (Zpos m) e mod 1000))).
  { intros m e. apply dec_word. pose proof (Z.mod_pos_bound (Z.shiftl (Zpos m) e) 1000). lia. }
  destruct x as [s|s| |[] m e]; try (apply letters_word; [reflexivity|discriminate]); [|apply D].
  split; [discriminate|]. intros c [<-|Hc]; [repeat split|]. exact (proj2 (D m e) c Hc).
Qed.
Definition addr_ (i : nat) : string := match i with O => "0x10" | S O => "0x20" | _ => "0x30" end.
Lemma addr_word i : word (addr_ i).
Proof. destruct i as [|[|i]]; apply letters_word; (reflexivity || discriminate). Qed.

Lemma word_7f : word "0x7f". Proof. apply letters_word; (reflexivity || discriminate). Qed.
Definition n_ (z : Z) : spec_float := f32 z 0.
Definition sphere_ : sphere spec_float := Sphere (V (n_ 1) (n_ 2) (n_ (-3))) (n_ 4) 7.
Lemma sphere_case :
  cat (print_sphere show_whole "0x7f" sphere_) =
    (ln "{" ++ ln "  ""Sphere"": 0x7f," ++ ln "  ""center"": [1,2,-3]," ++ ln "  ""radius"": 4," ++ ln "  ""prim_id"": 7" ++ ln "}")%string /\
  json_text (cat (print_sphere show_whole "0x7f" sphere_))
    (JObj [("Sphere", JWord "0x7f"); ("center", JArr [JWord "1"; JWord "2"; JWord "-3"]); ("radius", JWord "4"); ("prim_id", JWord "7")]).
Proof.
  split; [vm_compute; reflexivity|]. eexists. split; [left; vm_compute; reflexivity|]. apply (parse_value 40). reflexivity.
Qed.

(** A scene with two spheres and a triangle. *)
Definition objects : res (scene spec_float) :=
  do (s, _) <- @add_spheres _ F32 (new_scene default_options) [V (n_ 1) (n_ 2) (n_ (-3)); V (n_ 5) (n_ 0) (n_ 0)] [n_ 4; n_ 2];
  do (s, _) <- @add_mesh _ F32 s [V (n_ 0) (n_ 6) (n_ 0); V (n_ 1) (n_ 8) (n_ 0); V (n_ 0) (n_ 9) (n_ 1)] [V 0 1 2]%nat;
  Ok s.
Lemma scene_case : exists s l, objects = Ok s /\ @scene_printable _ F32 s /\ @scene_filled _ F32 s /\ @print_scene _ F32 show_whole "0x7f" addr_ s = Ok l /\
  json_text (cat l) (JObj [("Scene", JWord "0x7f"); ("Collections", JArr
    [JObj [("TriangleMesh", JArr [JObj [("size", JWord "1")];
       JObj [("Triangle", JWord "0x10"); ("a", JArr [JWord "0"; JWord "-2"; JWord "0"]); ("b", JArr [JWord "0"; JWord "3"; JWord "1"]);
             ("c", JArr [JWord "-1"; JWord "-2"; JWord "0"]); ("prim_id", JWord "0")]])];
     JObj [("SphereCollection", JArr [JObj [("size", JWord "2")];
       JObj [("Sphere", JWord "0x10"); ("center", JArr [JWord "1"; JWord "2"; JWord "-3"]); ("radius", JWord "4"); ("prim_id", JWord "0")];
       JObj [("Sphere", JWord "0x20"); ("center", JArr [JWord "5"; JWord "0"; JWord "0"]); ("radius", JWord "2"); ("prim_id", JWord "1")]])]])]).
Proof.
  destruct objects as [s| |] eqn:E; [|vm_compute in E; discriminate E..].
  assert (Hp : @scene_printable _ F32 s).
  { unfold objects in E. bind_inv. injection E as <-. eapply mesh_keeps; [eassumption|unfold fits; cbn; lia|].
    eapply spheres_keeps; [eassumption|unfold fits; cbn; lia|apply new_printable]. }
  assert (Hf : @scene_filled _ F32 s) by (vm_compute in E; injection E as <-; repeat split; intros g Eg; (discriminate Eg || (injection Eg as <-; discriminate))).
  assert (Hl : exists l, @print_scene _ F32 show_whole "0x7f" addr_ s = Ok l) by
    (destruct (scene_reads (N := F32) show_whole whole_word addr_ addr_word "0x7f" s word_7f Hp) as (l & El & _); eauto).
  destruct Hl as (l & El). exists s, l. repeat (split; [reflexivity || assumption|]).
  vm_compute in E. injection E as <-. vm_compute in El. injection El as <-. eexists. split; [left; vm_compute; reflexivity|]. apply (parse_value 90). reflexivity.
Qed.
(** A scene with no spheres in its collection of spheres. *)
Lemma empty_case : exists s l, @add_spheres _ F32 (new_scene default_options) [] [] = Ok (s, Some 0%nat) /\ @scene_printable _ F32 s /\
  @print_scene _ F32 show_whole "0x7f" addr_ s = Ok l /\
  cat l = (ln "{" ++ ln "  ""Scene"": 0x7f," ++ ln "  ""Collections"": [" ++ ln "{" ++ ln """SphereCollection"": [" ++ ln "{""size"": 0}," ++
    ln "}" ++ ln "  ]" ++ ln "}")%string /\ not_json (cat l).
Proof.
  destruct (@add_spheres _ F32 (new_scene default_options) [] []) as [[s o]| |] eqn:E; [|vm_compute in E; discriminate E..].
  assert (Hp : @scene_printable _ F32 s) by (eapply spheres_keeps; [eassumption|unfold fits; cbn; lia|apply new_printable]).
  destruct (scene_reads (N := F32) show_whole whole_word addr_ addr_word "0x7f" s word_7f Hp) as (l & El & _ & Hn).
  exists s, l. split; [vm_compute in E; injection E as <- <-; reflexivity|]. split; [exact Hp|]. split; [exact El|]. split.
  - vm_compute in E. injection E as <- <-. vm_compute in El. injection El as <-. vm_compute. reflexivity.
  - apply Hn. intros (_ & F & _). vm_compute in E. injection E as <- <-. exact (F _ eq_refl eq_refl).
Qed.
Lemma empty_exists : exists show : spec_float -> string, (forall x, word (show x)) /\ exists s l,
  @add_spheres _ F32 (new_scene default_options) [] [] = Ok (s, Some 0%nat) /\ @print_scene _ F32 show "0x7f" addr_ s = Ok l /\ not_json (cat l).
Proof. exists show_whole. split; [exact whole_word|]. destruct empty_case as (s & l & A & _ & B & _ & C). eauto. Qed.
(** A triangle moved along the second axis. *)
Definition at_height (y : Z) : list (vec spec_float) := [V (n_ 0) (n_ y) (n_ 0); V (n_ 1) (n_ (y + 2)) (n_ 0); V (n_ 0) (n_ (y + 3)) (n_ 1)].
Lemma mesh_twice : exists s s', at_height 6 <> at_height 0 /\ @make_mesh _ F32 (at_height 6) [V 0 1 2]%nat = Ok s /\
  @make_mesh _ F32 (at_height 0) [V 0 1 2]%nat = Ok s' /\ forall show addrs, @print_mesh _ F32 show addrs s = @print_mesh _ F32 show addrs s'.
Proof.
  destruct (@make_mesh _ F32 (at_height 6) [V 0 1 2]%nat) as [s| |] eqn:E; [|vm_compute in E; discriminate E..].
  destruct (@make_mesh _ F32 (at_height 0) [V 0 1 2]%nat) as [s'| |] eqn:E'; [|vm_compute in E'; discriminate E'..].
  exists s, s'. split; [vm_compute; discriminate|]. split; [reflexivity|]. split; [reflexivity|].
  vm_compute in E, E'. injection E as <-. injection E' as <-. intros show addrs. vm_compute. reflexivity.
Qed.
