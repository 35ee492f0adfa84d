-Q theories Verif
theories/Base.v
theories/Stack.v
theories/Mem.v
theories/Parser.v
theories/Flt.v
theories/State.v
theories/CoreM.v
theories/IoM.v
theories/FloatM.v
theories/FileM.v
theories/Exec.v
theories/CoreFth.v
theories/Boot.v
theories/Term.v
theories/Std.v
theories/Shell.v
theories/UnitTests.v
theories/LBase.v
theories/Spec.v
theories/Spec2.v
theories/LStack.v
theories/LState.v
theories/LWords.v
theories/LHist.v
theories/LCheck.v
theories/Ex.v
theories/P1_Stack.v
theories/LMem.v
theories/LMon.v
theories/LMemWords.v
theories/LFloat.v
theories/LSafe.v
theories/Spec13.v
theories/LStep.v
theories/LPres.v
theories/LExec.v
theories/LInv.v
theories/Spec3.v
theories/P2_Memory.v
theories/Spec4.v
theories/LTask.v
theories/Ex2.v
theories/P3_Tasks.v
theories/LFuel.v
theories/Spec5.v
theories/LCode.v
theories/Spec6.v
theories/LComp.v
theories/Spec7.v
theories/LRun.v
theories/LCtl.v
theories/LDec.v
theories/Ex3.v
theories/P4_Control.v
theories/Spec8.v
theories/LLabel.v
theories/Ex4.v
theories/P5_Labels.v
theories/Spec9.v
theories/LNest.v
theories/Ex5.v
theories/P6_Nesting.v
theories/Spec10.v
theories/LDict.v
theories/LDict2.v
theories/LDict3.v
theories/LDict4.v
theories/LDict5.v
theories/Ex6.v
theories/P7_Dictionary.v
theories/Spec11.v
theories/LParse.v
theories/LNum.v
theories/LNum2.v
theories/LText.v
theories/Ex7.v
theories/P8_Text.v
theories/Spec12.v
theories/LFile.v
theories/LFile2.v
theories/LFile3.v
theories/LFile4.v
theories/LFile5.v
theories/Ex8.v
theories/P9_Files.v
theories/Spec14.v
theories/LCodes.v
theories/LSay.v
theories/LNoInput.v
theories/LClean.v
theories/Ex9.v
theories/Spec23.v
theories/LTame.v
theories/LCrash.v
theories/LCrash2.v
theories/LCrash3.v
theories/LCrash4.v
theories/Ex17.v
theories/Spec24.v
theories/LSys.v
theories/LSys2.v
theories/LName.v
theories/Ex18.v
theories/P10_Interp.v
theories/Spec15.v
theories/LLib.v
theories/LLibWords.v
theories/Ex10.v
theories/P11_Library.v
theories/Spec16.v
theories/LDefine.v
theories/LDefine2.v
theories/Ex11.v
theories/P12_Defining.v
theories/Spec17.v
theories/LSource.v
theories/Ex12.v
theories/P13_Source.v
theories/Spec18.v
theories/LFacility.v
theories/LFacility2.v
theories/Ex13.v
theories/P14_Facility.v
theories/Spec19.v
theories/LEval.v
theories/Ex14.v
theories/P15_Line.v
theories/Spec20.v
theories/LSame.v
theories/LSame2.v
theories/LSame3.v
theories/LSame4.v
theories/LSame5.v
theories/Ex15.v
theories/P16_Same.v
theories/Spec21.v
theories/Spec22.v
theories/LReal.v
theories/LReal2.v
theories/LReal3.v
theories/LReal4.v
theories/LPi.v
theories/LReal5.v
theories/LReal6.v
theories/Ex16.v
theories/P17_Float.v
theories/P18_System.v
theories/Spec25.v
theories/LPrint.v
theories/LPrint2.v
theories/LPrint3.v
theories/LPrint4.v
theories/Ex19.v
theories/P19_Printing.v
theories/Spec26.v
theories/LTerm.v
theories/LTerm2.v
theories/P20_Terminal.v
theories/Spec27.v
theories/LShell.v
theories/LShell2.v
theories/LShell3.v
theories/LShell4.v
theories/LShell5.v
theories/LShell6.v
theories/LShell7.v
theories/Ex20.v
theories/Ex21.v
theories/P21_Shell.v
theories/Spec28.v
theories/LTrim.v
theories/LTrim2.v
theories/LInc.v
theories/LInc2.v
theories/Spec29.v
theories/LInc3.v
theories/LInc4.v
theories/Ex22.v
theories/P22_Load.v
theories/Spec30.v
theories/LInc5.v
theories/LInc6.v
theories/LInc7.v
theories/Ex23.v
theories/Ex24.v
theories/P23_NoLoad.v
