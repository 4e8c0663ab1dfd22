(** What the processors and consoles add looks at neither definitions nor macros. *)
From Verif Require Import Py PyFacts Utils Tokenizer State Assembler Instr Mos6502 Mc68000 Mips32 Lr35902 Z80 Thumb Ppc I8086 X86 Platform.
From Verif Require Import SpecCpu SpecHost FitMos FitLr FitZ80 FitThumb FitMips FitM68 FitPpc FitI86 FitX86 CartFacts SpecSpare SpareFacts.
Local Open Scope Z_scope.

Lemma referring_put : forall ds s D N, referring (put s D N) ds = put (referring s ds) D N /\
  defines (referring s ds) = defines s /\ macros (referring s ds) = macros s /\ macro_recording (referring s ds) = macro_recording s.
Proof.
  induction ds as [|d ds IH]; intros s D N; cbn [referring]; [repeat split|].
  destruct (IH (set_labels_addresses s (dset Z.eqb (labels_addresses s) (zlen (assembled s) + ld_offset d) d)) D N) as (E & E1 & E2 & E3).
  split; [exact E|]. rewrite E1, E2, E3. repeat split.
Qed.
Lemma well_blind : forall f t, well_behaved f -> blind (f t).
Proof.
  intros f t W s D N. destruct (W t s) as (ds & r & E & V & _). rewrite E. cbn [fst snd].
  destruct (referring_put ds s D N) as (R & R1). split; [|exact R1]. rewrite V; [rewrite R; reflexivity|repeat split].
Qed.
Lemma fits_blind : forall c, SpecCpu.fits c -> blind_plugins c.
Proof.
  intros c (H & _ & (N1 & N2) & B). split; [|split].
  - intros k f t D. apply well_blind. exact (H k f D).
  - intros k f t D s D' N'. destruct (B k f D t s) as (bits & b & r & _ & E). rewrite (E s) by (repeat split).
    rewrite (E (put s D' N')) by (repeat split). repeat split.
  - intros m I. rewrite N1, N2 in I. destruct I.
Qed.

(** ** Consoles *)
Lemma bat_fill : forall p a n t s D N, bat s D N (cartridge_fill p a n t) (cartridge_fill p a n t).
Proof.
  intros p a n t s D N. unfold cartridge_fill. apply bat_get. change (cartridge_set (put s D N)) with (cartridge_set s).
  destruct (negb _); [apply bat_raise|]. destruct (Nat.ltb _ _); [apply bat_raise|]. apply bat_bind.
  - destruct (bat_bytes_or_ascii p (skipn 1 t) [] s D N) as (E & K). unfold bat. rewrite E.
    destruct (parse_bytes_or_ascii p (skipn 1 t) [] s) as [u [v|[x|x]]]; cbn [fst snd] in *; auto. destruct x; auto.
  - intros u v. destruct (n <? zlen v); [apply bat_raise|]. unfold bat. change (assembled (put u D N)) with (assembled u).
    destruct (write_bytes a v (assembled u)) as [o e]. repeat split.
Qed.
Lemma bat_gb_cartridge : forall t s D N, bat s D N (gb_cartridge t) (gb_cartridge t).
Proof. intros. unfold gb_cartridge. repeat first [apply bat_change_org | bstep]. Qed.
Lemma bat_nes_cartridge : forall t s D N, bat s D N (nes_cartridge t) (nes_cartridge t).
Proof. intros. unfold nes_cartridge. bgo. Qed.
Lemma bat_tiles : forall e ok conv t s D N, bat s D N (directive_tiles e ok conv t) (directive_tiles e ok conv t).
Proof. intros. unfold directive_tiles. bgo. Qed.
Lemma bat_gb_fix : forall s D N, bat s D N gb_fix gb_fix.
Proof. intros. unfold gb_fix. bgo. Qed.

Lemma console_blind : forall c p e ops dirs post, handlers well_behaved c -> c_instructions c = c_instructions (mk_cfg p e ops dirs [] post) ->
  (forall f, In (D_custom f) (map snd dirs) -> forall t s D N, bat s D N (f t) (f t)) ->
  (forall m, In m post -> forall s D N, bat s D N m m) -> blind_plugins (mk_cfg p e ops dirs [] post).
Proof.
  intros c p e ops dirs post H E HD HP. split; [|split].
  - intros k f t D. apply well_blind. rewrite <- E in D. exact (H k f D).
  - intros k f t D. apply bat_blind. intros. apply custom_in in D. apply HD. exact D.
  - intros m I. apply bat_blind. intros. apply HP. exact I.
Qed.
Lemma gameboy_blind : forall e, blind_plugins (gameboy e).
Proof.
  intros e. apply (console_blind (lr35902 e)); [exact (proj1 (proj1 (lr_fits e)))|reflexivity| |].
  - intros f I t s D N. cbn [gb_directives map snd In] in I. repeat destruct I as [I|I]; try contradiction; injection I as <-.
    + apply bat_gb_cartridge.
    + apply bat_fill.
    + apply bat_fill.
    + apply bat_fill.
    + apply bat_fill.
    + apply bat_fill.
    + apply bat_fill.
    + apply bat_tiles.
  - intros m [<-|[]]. apply bat_gb_fix.
Qed.
Lemma nes_blind : forall e, blind_plugins (nes e).
Proof.
  intros e. apply (console_blind (mos6502 e)); [exact (proj1 (proj1 (mos_fits e)))|reflexivity| |intros ? []].
  intros f I t s D N. cbn [nes_directives map snd In] in I. repeat destruct I as [I|I]; try contradiction; injection I as <-.
  - apply bat_nes_cartridge.
  - apply bat_fill.
  - apply bat_fill.
  - apply bat_tiles.
Qed.
Lemma sms_blind : forall e, blind_plugins (sms e).
Proof.
  intros e. apply (console_blind (z80 e)); [exact (proj1 (proj1 (z80_fits e)))|reflexivity| |intros ? []].
  intros f [I|[]] t s D N. injection I as <-. apply bat_tiles.
Qed.
Lemma shipped_blind : forall C e, In C shipped -> blind_plugins (C e).
Proof.
  intros C e I. unfold shipped in I. cbn [In] in I. repeat destruct I as [<-|I]; [..|contradiction].
  - apply fits_blind, mos_fits.
  - apply fits_blind, lr_fits.
  - apply fits_blind, z80_fits.
  - apply fits_blind, thumb_fits.
  - apply fits_blind, mips_fits.
  - apply fits_blind, mips_fits.
  - apply fits_blind, mc68000_fits.
  - apply fits_blind, ppc_fits.
  - apply fits_blind, i86_fits.
  - apply fits_blind, x86_fits.
  - apply gameboy_blind.
  - apply nes_blind.
  - apply sms_blind.
Qed.
