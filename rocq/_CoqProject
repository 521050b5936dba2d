-Q theories Verif

theories/M_Base.v
theories/M_Specs.v
theories/M_Crc.v
theories/M_Header.v
theories/M_Multihash.v
theories/M_Metadata.v
theories/M_Block.v
theories/M_Index.v
theories/M_FileUtils.v
theories/S_Crc.v
theories/S_Meta.v
theories/S_Block.v
theories/L_Base.v
theories/L_File.v
theories/L_Crc.v
theories/L_Header.v
theories/L_Meta.v
theories/L_Block.v
theories/L_Header2.v
theories/L_Crc2.v
theories/L_Meta2.v
theories/L_Block2.v
theories/P_Header.v
theories/P_Crc.v
theories/L_Utf8.v
theories/P_Meta.v
theories/P_Block.v
theories/S_Index.v
theories/L_Index.v
theories/L_Index2.v
theories/P_Index.v
theories/M_Buffer.v
theories/M_Ranges.v
theories/M_Encode.v
theories/S_Container.v
theories/L_Buffer.v
theories/L_Lot.v
theories/L_Encode.v
theories/L_Container.v
theories/L_Encode2.v
theories/L_Encode3.v
theories/S_Encode.v
theories/L_Encode4.v
theories/P_Encode.v
theories/S_Pace.v
theories/L_Pace.v
theories/P_Exact.v
theories/M_Scan.v
theories/M_Hex.v
theories/M_Loop.v
theories/M_Decode.v
theories/M_Sort.v
theories/L_Ranges.v
theories/P_Ranges.v
theories/L_Loop.v
theories/S_Decode.v
theories/S_Scan.v
theories/L_Scan.v
theories/L_Decode.v
theories/L_Sort.v
theories/S_Sort.v
theories/L_Sort2.v
theories/L_Sort3.v
theories/L_Sort4.v
theories/P_Sort.v
theories/M_Repair.v
theories/S_Repair.v
theories/L_Repair.v
theories/L_Repair2.v
theories/L_Repair3.v
theories/L_Repair4.v
theories/L_Repair5.v
theories/L_Repair6.v
theories/L_Repair7.v
theories/L_Repair8.v
theories/L_Repair9.v
theories/P_Repair.v
theories/L_Ref.v
theories/S_Guess.v
theories/L_Guess2.v
theories/L_Intact2.v
theories/L_Roundtrip.v
theories/P_Roundtrip.v
theories/P_Guess.v
theories/L_Guess.v
theories/L_Intact.v
theories/P_Decode.v
theories/L_Decode2.v
theories/P_Scan.v
theories/M_Content.v
theories/S_Content.v
theories/L_Chunks.v
theories/L_Content.v
theories/P_Content.v
theories/S_Stdout.v
theories/L_Stdout.v
theories/L_Stdout2.v
theories/P_Stdout.v
theories/M_Update.v
theories/S_Update.v
theories/L_Update.v
theories/P_Update.v
theories/M_Check.v
theories/S_Check.v
theories/L_Check.v
theories/P_Check.v
theories/M_Rescue.v
theories/S_Rescue.v
theories/L_Log.v
theories/L_Rescue.v
theories/L_Rescue2.v
theories/L_Rescue3.v
theories/P_Rescue.v
theories/M_Pipeline.v
theories/S_Pipeline.v
theories/L_Pipeline.v
theories/L_Pipeline2.v
theories/L_Pipeline3.v
theories/P_Pipeline.v
theories/M_Json.v
theories/S_Json.v
theories/L_Json.v
theories/L_Json2.v
theories/P_Json.v
theories/M_Show.v
theories/S_Show.v
theories/L_Show.v
theories/P_Show.v
theories/M_Codec.v
theories/L_Codec.v
theories/P_Codec.v
theories/M_FileIO.v
theories/S_FileIO.v
theories/L_FileIO.v
theories/P_FileIO.v
theories/M_Path.v
theories/M_Cli.v
theories/S_Cli.v
theories/L_Path.v
theories/L_Cli.v
theories/L_Cli2.v
theories/P_Cli.v
theories/P_Options.v
theories/L_Cli3.v
theories/P_Commands.v
theories/M_Calc.v
theories/S_Calc.v
theories/L_Tolerance.v
theories/L_Calc.v
theories/P_Calc.v
theories/S_Lost.v
theories/L_Lost.v
theories/L_Lost2.v
theories/L_Lost3.v
theories/L_Lost4.v
theories/P_Lost.v
theories/M_RescueCmd.v
theories/S_RescueCmd.v
theories/L_RescueCmd.v
theories/P_RescueCmd.v
theories/L_LostCmd.v
theories/P_LostCmd.v
theories/S_History.v
theories/L_Renew.v
theories/L_History.v
theories/P_History.v
theories/S_Halfway.v
theories/L_Halfway.v
theories/L_Halfway2.v
theories/P_Halfway.v
theories/M_RepairCut.v
theories/S_Cut.v
theories/L_RepairCut.v
theories/P_RepairCut.v
theories/M_Report.v
theories/S_Report.v
theories/L_Report.v
theories/P_Report.v
theories/S_Again.v
theories/L_Again.v
theories/P_Again.v
theories/M_Info.v
theories/S_Info.v
theories/P_Info.v
theories/M_Look.v
theories/S_Look.v
theories/P_Look.v
theories/P_Approve.v
theories/M_Progress.v
theories/S_Progress.v
theories/L_Progress.v
theories/L_ProgressRun.v
theories/P_Progress.v
theories/M_Log.v
theories/S_Log.v
theories/P_Log.v
theories/M_RepairList.v
theories/S_RepairList.v
theories/L_RepairList.v
theories/P_RepairList.v
theories/P_RepairGuess.v
theories/M_UpdateList.v
theories/S_UpdateList.v
theories/L_UpdateList.v
theories/P_UpdateList.v
theories/S_Copies.v
theories/L_Copies.v
theories/P_Copies.v
theories/L_JsonExact.v
theories/P_JsonExact.v
theories/S_Facts.v
theories/L_Facts.v
theories/P_Facts.v
theories/S_ShowAll.v
theories/L_ShowAll.v
theories/P_ShowAll.v
theories/M_ReadIO.v
theories/S_ReadIO.v
theories/P_ReadIO.v
theories/M_Stop.v
theories/S_Stop.v
theories/L_Stop.v
theories/L_Stop2.v
theories/P_Stop.v
theories/M_StopSort.v
theories/P_StopSort.v
theories/M_StopOut.v
theories/L_StopOut.v
theories/P_StopOut.v
theories/M_StopRef.v
theories/S_StopRef.v
theories/L_StopRef.v
theories/P_StopRef.v
theories/L_SortAgain.v
theories/P_SortAgain.v
theories/P_LookAny.v
theories/M_Channel.v
theories/P_Channel.v
theories/P_GuessWindow.v
theories/S_Damage.v
theories/P_GuessLarge.v
theories/P_ReportErr.v
theories/M_StopRepair.v
theories/S_StopRepair.v
theories/L_StopRepair.v
theories/L_StopRepair2.v
theories/P_StopRepair.v
