-Q theories Verif
theories/Py.v
theories/Utils.v
theories/Tokenizer.v
theories/State.v
theories/Assembler.v
theories/SpecUtils.v
theories/SpecParse.v
theories/SpecTok.v
theories/SpecSubst.v
theories/PyFacts.v
theories/UtilsFacts.v
theories/ParseFacts.v
theories/TokFacts.v
theories/SubstFacts.v
theories/PropsUtils.v
theories/PropsParse.v
theories/PropsTok.v
theories/Events.v
theories/SpecExec.v
theories/ExecFacts.v
theories/Demo.v
theories/PropsExec.v
theories/PropsData.v
theories/PropsPad.v
theories/SpecLink.v
theories/LinkFacts.v
theories/DigitFacts.v
theories/PropsLink.v
theories/SpecSim.v
theories/SimFacts.v
theories/SimExec.v
theories/PropsRuns.v
theories/SpecMacro.v
theories/MacroFacts.v
theories/PropsMacro.v
theories/Elf.v
theories/SpecElf.v
theories/ElfFacts.v
theories/PropsElf.v
theories/Instr.v
theories/Mos6502.v
theories/SpecCpu.v
theories/SpecMos.v
theories/CpuFacts.v
theories/MosFacts.v
theories/PropsMos.v
theories/FitFacts.v
theories/FitMos.v
theories/SpecPlace.v
theories/PlaceFacts.v
theories/LabelMono.v
theories/PropsPlace.v
theories/Reach.v
theories/PropsMosLink.v
theories/PropsFit.v
theories/Mips32.v
theories/SpecMips.v
theories/WordFacts.v
theories/MipsFacts.v
theories/FitInstr.v
theories/FitMips.v
theories/WordLink.v
theories/PropsMips.v
theories/Thumb.v
theories/SpecThumb.v
theories/ThumbFacts.v
theories/FitThumb.v
theories/PropsThumb.v
theories/SpecByte.v
theories/Lr35902.v
theories/SpecLr.v
theories/LrFacts.v
theories/LrEnc.v
theories/ByteLink.v
theories/FitLr.v
theories/PropsLr.v
theories/Z80.v
theories/SpecZ80.v
theories/Z80Facts.v
theories/Z80Enc.v
theories/FitZ80.v
theories/PropsZ80.v
theories/Platform.v
theories/SpecPlat.v
theories/PlatFacts.v
theories/TileFacts.v
theories/FuelFacts.v
theories/PropsInc.v
theories/SpecFiles.v
theories/PropsFiles.v
theories/CartFacts.v
theories/PropsPlat.v
theories/ConsoleFacts.v
theories/Mc68000.v
theories/SpecM68.v
theories/M68Lex.v
theories/M68Facts.v
theories/M68Ops.v
theories/M68Names.v
theories/M68Link.v
theories/FitM68.v
theories/PropsM68.v
theories/I8086.v
theories/SpecI86.v
theories/I86Sem.v
theories/I86Check.v
theories/I86Facts.v
theories/I86Rows.v
theories/I86Read.v
theories/I86Enc.v
theories/I86Link.v
theories/FitI86.v
theories/PropsI86.v
theories/Ppc.v
theories/SpecPpc.v
theories/PpcFacts.v
theories/PpcEnc.v
theories/FitPpc.v
theories/PpcLink.v
theories/PropsPpc.v
theories/X86.v
theories/X86Facts.v
theories/FitX86.v
theories/SpecX86.v
theories/X86Enc.v
theories/X86Link.v
theories/PropsX86.v
theories/ElfPlat.v
theories/PropsEplat.v
theories/CasesText.v
theories/PropsText.v
theories/CasesExec.v
theories/CasesLink.v
theories/CasesElf.v
theories/CasesMos.v
theories/CasesWord.v
theories/CasesByte.v
theories/PropsConsole.v
theories/CasesM68.v
theories/CasesI86.v
theories/CasesPpc.v
theories/CasesX86.v
theories/CasesPlat.v
theories/Report.v
theories/SpecReport.v
theories/ReportFacts.v
theories/TellFacts.v
theories/ReprFacts.v
theories/PropsReport.v
theories/SpecStop.v
theories/StopFacts.v
theories/PropsStop.v
theories/PropsQuirk.v
theories/SpecHost.v
theories/HostFacts.v
theories/PropsHost.v
theories/SpecCalm.v
theories/CalmFacts.v
theories/CalmCpu.v
theories/CalmMos.v
theories/PropsCalm.v
theories/SpecSpare.v
theories/SpareFacts.v
theories/SpareCpu.v
theories/PropsSpare.v
theories/PropsNames.v
