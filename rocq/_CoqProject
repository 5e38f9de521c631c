-Q theories Verif
theories/Base.v
theories/Circuit.v
theories/Eval.v
theories/Sem.v
theories/CircuitFacts.v
theories/Effects.v
theories/Inv.v
theories/SemFacts.v
theories/EvalSound.v
theories/Disc.v
theories/DepsFacts.v
theories/EvalComplete.v
theories/EvalPad.v
theories/OpFacts.v
theories/Counts.v
theories/DiscDec.v
theories/Prop_Circuit.v
theories/EvalDec.v
theories/Prop_Eval.v
theories/EvalModes.v
theories/Prop_Outcomes.v
theories/Utils.v
theories/Prop_Utils.v
theories/Build.v
theories/Text.v
theories/Bristol.v
theories/Messages.v
theories/Reader.v
theories/ReaderFacts.v
theories/Prop_Reader.v
theories/Writer.v
theories/WriterFacts.v
theories/Prop_Writer.v
theories/Blocks.v
theories/Logic.v
theories/LogicFacts.v
theories/BuildEval.v
theories/Prop_Logic.v
theories/Int.v
theories/ZBits.v
theories/IntFacts.v
theories/IntOps.v
theories/Prop_Int.v
theories/Fp.v
theories/FpFacts.v
theories/Prop_Fp.v
theories/Netlist.v
theories/Cuts.v
theories/Net_adder64.v
theories/Net_sub64.v
theories/Net_neg64.v
theories/Cert_adder64.v
theories/Cert_sub64.v
theories/Cert_neg64.v
theories/Prop_Arith64.v
theories/Net_mult2_64.v
theories/Cert_mult2_64.v
theories/Prop_Mult64.v
theories/Rows.v
theories/Net_udivide64.v
theories/Cert_udivide64.v
theories/Net_divide64.v
theories/Cert_divide64.v
theories/Prop_Div64.v
theories/Aes.v
theories/Sbox.v
theories/AesCheck.v
theories/Net_aes128.v
theories/Cert_aes128.v
theories/Prop_Aes.v
theories/Prop_Straight.v
theories/Prop_Export.v
theories/Prop_Design.v
theories/Prop_Library.v
theories/Prop_Cost.v
theories/Prop_Live.v
theories/Io.v
theories/Prop_Io.v
theories/Prop_Source.v
theories/Words.v
theories/Prop_Words.v
theories/Prop_Depth.v
theories/EvalCost.v
theories/EvalBound.v
theories/Cells.v
theories/Prop_Borrow.v
theories/Prop_Work.v
theories/Prop_Readings.v
theories/Prop_Append.v
theories/CellsIo.v
theories/Prop_BorrowIo.v
theories/Prop_Stuck.v
theories/Prop_Errors.v
theories/Prop_Messages.v
theories/Prop_Agree.v
theories/Prop_Faults.v
theories/Prop_WriteFaults.v
theories/Prop_Given.v
theories/WriterMap.v
theories/Prop_Map.v
theories/Prop_Fields.v
theories/Prop_Patch.v
theories/Prop_Course.v
theories/Prop_Hidden.v
theories/Prop_Tokens.v
theories/Prop_Modes.v
theories/Own.v
theories/Prop_Own.v
