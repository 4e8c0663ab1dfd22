(** Model of necroassembler/platforms: gameboy.py, nes.py, sms.py, genesis.py,
    gba.py, psx.py, and of Assembler.main (assembler.py:877-893). *)
From Verif Require Import Py Utils Tokenizer State Assembler Lr35902 Mos6502 Mips32 Thumb Z80.
Local Open Scope Z_scope.

(** range(start, stop, step) for step >= 1; gameboy.py:160, genesis.py:14, gba.py:14 *)
Definition py_range (start stop step : Z) : list Z :=
  map (fun k => start + step * Z.of_nat k) (seq 0 (Z.to_nat ((stop - start + step - 1) / step))).

(** A loop over a sequence with one accumulated value; gameboy.py:124-135, 160-168 *)
Fixpoint fold_res {A B} (f : B -> A -> res B) (l : list A) (b : B) : res B :=
  match l with [] => Ok b | a :: t => let? b' := f b a in fold_res f t b' end.

(** ** Headers *)

(** gameboy.py:82-94, nes.py:56-68 _cartridge_fill.  LabelNotAllowed is turned into
    InvalidArgumentsForDirective; bytes are written one by one. *)
Definition cartridge_fill (p : pcfg) (address size : Z) (tokens : list str) : M unit :=
  let! s := get in
  if negb (cartridge_set s) then araise CartridgeHeaderNotSet else
  if Nat.ltb (length tokens) 2 then araise InvalidArgumentsForDirective else
  let! blob := (fun s => match parse_bytes_or_ascii p (skipn 1 tokens) [] s with
                         | (s', Err (AExc LabelNotAllowed)) => (s', Err (AExc InvalidArgumentsForDirective))
                         | r => r
                         end) in
  if size <? zlen blob then araise InvalidArgumentsForDirective else
  fun s => let '(out, e) := write_bytes address blob (assembled s) in
           (set_assembled s out, match e with None => Ok tt | Some e => Err e end).

(** gameboy.py:48-80: the header; nop_jp_150 and nintendo_logo *)
Definition gb_entry : bytes := [0x00; 0xC3; 0x50; 0x01].
(** gameboy.py:55-61 *)
Definition gb_logo : bytes :=
  [0xCE; 0xED; 0x66; 0x66; 0xCC; 0x0D; 0x00; 0x0B; 0x03; 0x73; 0x00; 0x83; 0x00; 0x0C; 0x00; 0x0D;
   0x00; 0x08; 0x11; 0x1F; 0x88; 0x89; 0x00; 0x0E; 0xDC; 0xCC; 0x6E; 0xE6; 0xDD; 0xDD; 0xD9; 0x99;
   0xBB; 0xBB; 0x67; 0x63; 0x6E; 0x0E; 0xEC; 0xCC; 0xDD; 0xDC; 0x99; 0x9F; 0xBB; 0xB9; 0x33; 0x3E].
(** gameboy.py:62-79 *)
Definition gb_header : bytes :=
  gb_entry ++ gb_logo ++ repeat 0 16 ++ repeat 0 2 ++ repeat 0 2 ++ repeat 0 2 ++ [0x01] ++ [0x33] ++
  repeat 0 1 ++ repeat 0 3.
(** gameboy.py:48-80 *)
Definition gb_cartridge (tokens : list str) : M unit :=
  let! s := get in
  if negb (zlen (assembled s) =? 256) then araise InvalidCartridgeHeaderOffset else
  change_org lr_p 0x100 (current_org_end s) ;;
  append_assembled_bytes gb_header ;;
  modify (fun s => set_cartridge s true).

(** nes.py:42-54 *)
Definition nes_header : bytes := [78; 69; 83] ++ [0x1A] ++ [0x02] ++ [0x00] ++ repeat 0 10.
(** nes.py:42-54 *)
Definition nes_cartridge (tokens : list str) : M unit :=
  let! s := get in
  if negb (zlen (assembled s) =? 0) then araise InvalidCartridgeHeaderOffset else
  append_assembled_bytes nes_header ;;
  modify (fun s => set_cartridge s true).

(** ** Tiles *)

(** The loops over y and x of _convert_cell (gameboy.py:122-135, nes.py:80-95,
    sms.py:35-52): [limit] is the largest colour, [planes] the bits of the colour that go to
    byte0, byte1, ...; the bytes of one row. *)
Definition cell_row (img : image) (limit : Z) (planes : list (Z -> Z)) (cell_x cell_y y : Z) : res (list Z) :=
  fold_res (fun row x =>
      let v := img_pixel img (cell_x * 8 + x) (cell_y * 8 + y) in
      if negb ((0 <=? v) && (v <=? limit)) then Err (AExc InvalidPaletteEntry)
      else Ok (map (fun '(b, f) => Z.lor b (Z.shiftl (f v) (7 - x))) (combine row planes)))
    (py_range 0 8 1) (map (fun _ => 0) planes).
(** gameboy.py:124-135, nes.py:83-95, sms.py:37-52: the loop over y *)
Definition cell_rows (img : image) (limit : Z) (planes : list (Z -> Z)) (cell_x cell_y : Z) : res (list (list Z)) :=
  fold_res (fun rows y => let? row := cell_row img limit planes cell_x cell_y y in Ok (rows ++ [row]))
    (py_range 0 8 1) [].
(** blob += bytes(...): every value must be a byte; gameboy.py:138, nes.py:98-100, sms.py:55 *)
Definition blob_of (l : list Z) : res bytes :=
  if forallb (fun b => (0 <=? b) && (b <? 256)) l then Ok l else Err (PExc ValueError).

(** gameboy.py:122-139, sms.py:35-56: the planes of a row follow each other *)
Definition tiles_by_row (img : image) (limit : Z) (planes : list (Z -> Z)) (cell_x cell_y : Z) : res bytes :=
  let? rows := cell_rows img limit planes cell_x cell_y in blob_of (concat rows).
(** nes.py:80-101: first the rows of plane 0, then those of plane 1 *)
Definition tiles_by_plane (img : image) (limit : Z) (planes : list (Z -> Z)) (cell_x cell_y : Z) : res bytes :=
  let? rows := cell_rows img limit planes cell_x cell_y in
  blob_of (map (fun r => nth 0 r 0) rows ++ map (fun r => nth 1 r 0) rows).

(** gameboy.py:141-154, nes.py:103-116, sms.py:58-71: [size_ok] is the test of the size.  The
    cells are appended as they are converted. *)
Definition directive_tiles (e : env) (size_ok : Z -> Z -> bool) (convert : image -> Z -> Z -> res bytes)
    (tokens : list str) : M unit :=
  if negb (len_in tokens [2]%nat) then araise InvalidArgumentsForDirective else
  let! t1 := tok_at tokens 1 in
  let! filename := lift (stringify t1) in
  let! img := open_file (file_image e) filename in
  if negb (img_indexed img) then araise OnlyIndexedImages else
  if negb (size_ok (img_width img) (img_height img)) then araise InvalidImageSize else
  iter (fun cell_y =>
    iter (fun cell_x => let! blob := lift (convert img cell_x cell_y) in append_assembled_bytes blob)
      (py_range 0 (img_width img / 8) 1))
    (py_range 0 (img_height img / 8) 1).

(** gameboy.py:149, sms.py:66 *)
Definition mult8 (w h : Z) : bool := (w mod 8 =? 0) && (h mod 8 =? 0).
(** nes.py:111 *)
Definition is128 (w h : Z) : bool := (w =? 128) && (h =? 128).
(** gameboy.py:133-134, nes.py:92-93 *)
Definition planes2 : list (Z -> Z) := [fun v => Z.land v 1; fun v => Z.shiftr v 1].
(** sms.py:48-51 *)
Definition planes4 : list (Z -> Z) :=
  [fun v => Z.land v 1; fun v => Z.land (Z.shiftr v 1) 1; fun v => Z.land (Z.shiftr v 2) 1; fun v => Z.land (Z.shiftr v 3) 1].

(** gameboy.py:120-154 *)
Definition gb_tiles (e : env) := directive_tiles e mult8 (fun img => tiles_by_row img 3 planes2).
(** nes.py:78-116 *)
Definition nes_pattern_table (e : env) := directive_tiles e is128 (fun img => tiles_by_plane img 3 planes2).
(** sms.py:33-71 *)
Definition sms_tiles (e : env) := directive_tiles e mult8 (fun img => tiles_by_row img 15 planes4).

(** ** Checksums *)

(** gameboy.py:156-171 _fix *)
Definition gb_fix : M unit :=
  let! s := get in
  let! h := lift (fold_res (fun h i => let? b := at_index (assembled s) i in Ok (h - b - 1)) (py_range 0x134 0x14d 1) 0) in
  let! out := lift (set_index (assembled s) 0x14d (Z.land h 0xFF)) in
  modify (fun s => set_assembled s out) ;;
  let g := fold_left Z.add out 0 in
  let! out := lift (set_index out 0x14e (Z.land (Z.shiftr g 8) 0xFF)) in
  modify (fun s => set_assembled s out) ;;
  let! out := lift (set_index out 0x14f (Z.land g 0xFF)) in
  modify (fun s => set_assembled s out).

(** genesis.py:12-19 *)
Definition genesis_fix (out : bytes) : res bytes :=
  let? h := fold_res (fun h i => let? high := at_index out i in let? low := at_index out (i + 1) in
                                 Ok (h + Z.lor (Z.shiftl high 8) low)) (py_range 0x200 (zlen out) 2) 0 in
  let? out := set_index out 0x18e (Z.land (Z.shiftr h 8) 0xFF) in
  set_index out 0x18f (Z.land h 0xFF).

(** gba.py:12-16 *)
Definition gba_fix (out : bytes) : res bytes :=
  let? h := fold_res (fun h i => let? b := at_index out i in Ok (h - b)) (py_range 0xA0 0xBD 1) 0 in
  set_index out 0xBD (Z.land (h - 0x19) 0xFF).

(** ** The assemblers *)

(** gameboy.py:30-46 *)
Definition gb_defines : list (str * str) :=
  [ (#"VRAM", #"$8000"); (#"LCDC", #"$FF40"); (#"STAT", #"$FF41"); (#"SCY", #"$FF42"); (#"SCX", #"$FF43");
    (#"LY", #"$FF44"); (#"LYC", #"$FF45"); (#"WY", #"$FF4A"); (#"WX", #"$FF4B"); (#"TMAP0", #"$9800");
    (#"TMAP1", #"$9C00"); (#"WRAM", #"$C000"); (#"WRAM0", #"$C000"); (#"WRAM1", #"$D000"); (#"HRAM", #"$FF80") ].
(** gameboy.py:48-120, 156 *)
Definition gb_directives (e : env) : list (str * directive) :=
  [ (#"cartridge", D_custom gb_cartridge);
    (#"cartridge_title", D_custom (cartridge_fill lr_p 0x134 16));
    (#"cartridge_license", D_custom (cartridge_fill lr_p 0x144 2));
    (#"cartridge_cgb", D_custom (cartridge_fill lr_p 0x143 1));
    (#"cartridge_sgb", D_custom (cartridge_fill lr_p 0x146 1));
    (#"cartridge_type", D_custom (cartridge_fill lr_p 0x147 1));
    (#"cartridge_destination", D_custom (cartridge_fill lr_p 0x14A 1));
    (#"tiles", D_custom (gb_tiles e)) ].
(** gameboy.py:26-171: the class *)
Definition gameboy (e : env) : cfg := mk_cfg lr_p e lr_ops (gb_directives e) [] [gb_fix].

(** nes.py:30-40 *)
Definition nes_defines : list (str * str) :=
  [ (#"PPUCTRL", #"$2000"); (#"PPUMASK", #"$2001"); (#"PPUSTATUS", #"$2002"); (#"OAMADDR", #"$2003");
    (#"OAMDATA", #"$2004"); (#"PPUSCROLL", #"$2005"); (#"PPUADDR", #"$2006"); (#"PPUDATA", #"$2007"); (#"OAMDMA", #"$4014") ].
(** nes.py:42, 70-78 *)
Definition nes_directives (e : env) : list (str * directive) :=
  [ (#"cartridge", D_custom nes_cartridge);
    (#"cartridge_prg_roms", D_custom (cartridge_fill mos6502_p 0x05 1));
    (#"cartridge_chr_roms", D_custom (cartridge_fill mos6502_p 0x06 1));
    (#"chr_pattern_table", D_custom (nes_pattern_table e)) ].
(** nes.py:26-116: the class *)
Definition nes (e : env) : cfg := mk_cfg mos6502_p e mos6502_ops (nes_directives e) [] [].

(** sms.py:20-31 *)
Definition sms_defines : list (str * str) :=
  [ (#"RAM", #"$C000"); (#"JOY1", #"$DC"); (#"JOY2", #"$DD"); (#"PSG", #"$7F"); (#"VDPDATA", #"$BE"); (#"VDPADDR", #"$BF");
    (#"CMD_VRAM", #"$40"); (#"CMD_REG", #"$80"); (#"CMD_CRAM", #"$C0") ].
(** sms.py:33 *)
Definition sms_directives (e : env) : list (str * directive) := [ (#"tiles", D_custom (sms_tiles e)) ].
(** sms.py:18-71: the class *)
Definition sms (e : env) : cfg := mk_cfg z80_p e z80_ops (sms_directives e) [] [].

(** ** Programs *)

(** A script: the files it wrote, in order, and how it ended.  Simplification: files can
    always be written. nes.py:119-140, gba.py:4-18, psx.py:10-32, genesis.py:4-21 *)
Definition script := (list (str * bytes) * res unit)%type.

(** assembler.py:212-214 assemble_file *)
Definition assemble_file (c : cfg) (fuel : nat) (name : str) : M unit :=
  let! code := open_file (file_text (c_env c)) name in assemble c fuel code.

(** assembler.py:216-218 save *)
Definition save (s : st) (name : str) : list (str * bytes) := [(name, assembled s)].

(** assembler.py:877-893 main: [args] is sys.argv[1:], [defs] the class attribute defines.
    With no argument at all the usage is printed. *)
Definition cli_main (c : cfg) (defs : list (str * str)) (fuel : nat) (lk : linker) (pre post : list (M unit))
    (args : list str) : script :=
  match rev args with
  | [] => ([], Ok tt)
  | destination :: sources =>
      let c := Cfg (c_p c) (c_env c) (c_instructions c) (c_directives c) (c_pre_link c ++ pre) (c_post_link c ++ post) in
      match (iter (assemble_file c fuel) (rev sources) ;; link c lk) (init_st defs) with
      | (s, Ok _) => (save s destination, Ok tt)
      | (_, Err e) => ([], Err e)
      end
  end.

(** nes.py:119-123, genesis.py:4-8, gba.py:4-8, psx.py:10-14: assemble the first argument, link *)
Definition main_with (c : cfg) (defs : list (str * str)) (fuel : nat) (args : list str) (finish : st -> script) : script :=
  match args with
  | [] => ([], Err (PExc IndexError))
  | source :: _ =>
      match (assemble_file c fuel source ;; link c dummy_linker) (init_st defs) with
      | (s, Ok _) => finish s
      | (_, Err e) => ([], Err e)
      end
  end.
(** sys.argv[2] (gba.py:18, genesis.py:21, psx.py:20, nes.py:124) *)
Definition second (args : list str) : res str :=
  match args with _ :: d :: _ => Ok d | _ => Err (PExc IndexError) end.
(** gba.py:10-18, genesis.py:10-21: fix the bytes, then save *)
Definition finish_fixed (fix_ : bytes -> res bytes) (args : list str) (s : st) : script :=
  match (let? out := fix_ (assembled s) in let? d := second args in Ok (d, out)) with
  | Ok f => ([f], Ok tt)
  | Err e => ([], Err e)
  end.
(** genesis.py:4-21; [c] is the 68000 assembler *)
Definition genesis_main (c : cfg) (fuel : nat) (args : list str) : script :=
  main_with c [] fuel args (finish_fixed genesis_fix args).
(** gba.py:4-18 *)
Definition gba_main (e : env) (fuel : nat) (args : list str) : script :=
  main_with (thumb e) [] fuel args (finish_fixed gba_fix args).

(** output.seek(position); output.write(blob) on a file written so far: a gap reads as zeros,
    writing nothing leaves the file as it is; psx.py:21-32 *)
Definition write_at (file : bytes) (position : Z) (blob : bytes) : bytes :=
  match blob with
  | [] => file
  | _ => firstn (Z.to_nat position) (file ++ repeat 0 (Z.to_nat (position - zlen file))) ++ blob ++
         skipn (Z.to_nat (position + zlen blob)) file
  end.
(** psx.py:16-32 *)
Definition psx_file (assembled : bytes) : res bytes :=
  let padding := zlen assembled mod 2048 in
  let body := if padding =? 0 then assembled else assembled ++ repeat 0 (Z.to_nat (2048 - padding)) in
  let? size := pack_le32u [Some (zlen body)] in
  let f := write_at [] 0 (map ord #"PS-X EXE") in
  let f := write_at f 0x10 ([0x00; 0x00; 0x01; 0x80] ++ [0xFF; 0xFF; 0xFF; 0xFF] ++ [0x00; 0x00; 0x01; 0x80] ++ size ++
                            [0xF0; 0xFF; 0x1F; 0x80]) in
  let f := write_at f 0x4C (map ord #"Sony Computer Entertainment Inc. for Europe area") in
  Ok (write_at f 0x800 body).
(** psx.py:10-32 *)
Definition psx_main (e : env) (fuel : nat) (args : list str) : script :=
  main_with (mips32 false e) [] fuel args (finish_fixed psx_file args).

(** '{0:04X}'.format(n) for n >= 0 *)
Definition format_04X (n : Z) : str :=
  let d := upper (nat_digits 16 n) in repeat "0"%char (4 - length d) ++ d.
(** nes.py:125-140: one symbol file; the labels between [lo] and [hi] *)
Fixpoint nl_lines (p : pcfg) (lbls : list (str * label)) (lo hi : Z) (names : list str) : res str :=
  match names with
  | [] => Ok []
  | n :: t =>
      let? a := label_absolute p lbls n in
      match a with
      | None => Err (PExc TypeError)
      | Some a =>
          let line := if (lo <=? a) && (a <=? hi)
                      then #"$" ++ format_04X a ++ #"#" ++ n ++ #"#" ++ [ascii_of_N 13; ascii_of_N 10] else [] in
          let? r := nl_lines p lbls lo hi t in Ok (line ++ r)
      end
  end.
(** nes.py:127-132, 135-140 *)
Definition nl_file (s : st) (lo hi : Z) : res bytes :=
  let? t := nl_lines mos6502_p (labels s) lo hi (map fst (labels s)) in encode_ascii t.
(** nes.py:119-140 *)
Definition nes_main (e : env) (fuel : nat) (args : list str) : script :=
  main_with (nes e) nes_defines fuel args (fun s =>
    match second args with
    | Err er => ([], Err er)
    | Ok d =>
        let f0 := save s d in
        match nl_file s 0x8000 0xFFFF with
        | Err er => (f0, Err er)
        | Ok rom =>
            let f1 := f0 ++ [(d ++ #".0.nl", rom)] in
            match nl_file s 0 0x7FF with
            | Err er => (f1, Err er)
            | Ok ram => (f1 ++ [(d ++ #".ram.nl", ram)], Ok tt)
            end
        end
    end).
