(** The shipped themes (C52). *)
From Verif Require Import BaseFacts AnsiStyle AnsiProps ToolFacts Fixture.
From Verif Require Export AnsiSpec Themes.

Section P.
Context `{U : Uni}.

(** ** C52 *)
(** Every rule of every theme: the renderer can be made wherever the rule
    matches, renders any content, and on a terminal shows the content with the
    effects and colours of the rule and nothing left over. *)
Lemma rows_checked : forallb (forallb row_ok) all_themes = true.
Proof. vm_compute. reflexivity. Qed.
Lemma theme_class : forall theme key sels spec, In theme all_themes -> In (key, (sels, spec)) theme ->
  exists l, spec = RPair (Some AnsiEscapeCodeRenderer) (Some l).
Proof.
  intros theme key sels spec I1 I2.
  assert (F : Forall (Forall (fun r : str * (list selector * rspec rcls) => exists l, snd (snd r) = RPair (Some AnsiEscapeCodeRenderer) (Some l))) all_themes).
  { unfold all_themes, theme_autumn, theme_darkly, theme_darkly_ansi, theme_github, theme_iced_gopher, theme_monokai, theme_monokai_ansi, theme_tomorrow, theme_tomorrow_night.
    repeat (constructor; [repeat (constructor; [eexists; reflexivity|]); constructor|]). constructor. }
  pose proof (proj1 (Forall_forall _ _) F theme I1) as F1. exact (proj1 (Forall_forall _ _) F1 _ I2).
Qed.
Theorem C52_themes : forall theme key sels spec, In theme all_themes -> In (key, (sels, spec)) theme ->
  exists l fg bg, spec = RPair (Some AnsiEscapeCodeRenderer) (Some l) /\ span_settings l fg bg
  /\ forall d i pb lk ex, exists r, instantiate d AnsiEscapeCodeRenderer i (Ctx (Some l) pb lk ex) = Ok r
      /\ forall content, exists out, render_inst d r content = Ok out
         /\ (~ In 27%N content -> display plain out = (map (fun c => (c, inside l fg bg plain)) content, plain)).
Proof.
  intros theme key sels spec I1 I2. destruct (theme_class _ _ _ _ I1 I2) as (l & ->).
  pose proof rows_checked as R. rewrite forallb_forall in R. specialize (R _ I1). rewrite forallb_forall in R.
  specialize (R _ I2). cbn [row_ok rc_kind AnsiEscapeCodeRenderer] in R.
  destruct (span_ok l) as [[fg bg]|] eqn:E; [|discriminate]. apply span_ok_sound in E. exists l, fg, bg. split; auto. split; auto.
  intros d i pb lk ex. destruct (instantiate d AnsiEscapeCodeRenderer i (Ctx (Some l) pb lk ex)) as [r|e] eqn:HI; [|discriminate].
  exists r. split; auto. intros content. destruct (ansi_span l fg bg E) as (en & dis & R1 & _).
  exists (en ++ content ++ dis). split; [rewrite (ansi_instance _ _ _ _ _ _ _ _ HI); apply R1|]. intros N.
  destruct (C42_applied_and_undone_partial d i l pb lk ex r content fg bg E N HI) as (out & O1 & O2).
  rewrite (ansi_instance _ _ _ _ _ _ _ _ HI), R1 in O1. injection O1 as <-. exact O2.
Qed.
End P.

(** ** Cases that meet the hypotheses *)
Example theme_case : exists key sels spec, In (key, (sels, spec)) theme_iced_gopher /\ In theme_iced_gopher all_themes.
Proof. eexists. eexists. eexists. split; [left; reflexivity|]. unfold all_themes. cbn [In]. auto 10. Qed.

Print Assumptions C52_themes.
