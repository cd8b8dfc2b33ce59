-Q theories Verif
theories/Base.v
theories/F64.v
theories/BaseFacts.v
theories/F64Facts.v
theories/M_Hit.v
theories/M_Neutron.v
theories/M_Tpx3.v
theories/S_Hit.v
theories/P_Hit.v
theories/P_HitTime.v
theories/P_HitProps.v
theories/Properties_Hit.v
theories/S_Tpx3.v
theories/M_Core.v
theories/S_Core.v
theories/P_TimePackets.v
theories/P_Stream.v
theories/P_Payload.v
theories/P_Core.v
theories/Properties_Tpx3.v
theories/M_Centroid.v
theories/M_Abs.v
theories/S_Abs.v
theories/P_Abs.v
theories/P_AbsBox.v
theories/P_AbsProps.v
theories/S_Centroid.v
theories/P_Centroid.v
theories/Properties_Abs.v
theories/M_Parallel.v
theories/P_Parallel.v
theories/Properties_Parallel.v
theories/M_Tof.v
theories/S_Tof.v
theories/P_Tof.v
theories/Properties_Tof.v
theories/M_Tiff.v
theories/S_Tiff.v
theories/P_Tiff.v
theories/Properties_Tiff.v
theories/M_Hdf5.v
theories/S_Hdf5.v
theories/P_Hdf5.v
theories/Properties_Hdf5.v
theories/M_Cli.v
theories/S_Cli.v
theories/P_Cli.v
theories/P_CliRun.v
theories/Properties_Cli.v
theories/P_Schedule.v
theories/Properties_Schedule.v
theories/M_Gdc.v
theories/S_Gdc.v
theories/P_Gdc.v
theories/Properties_Gdc.v
theories/M_Venus.v
theories/S_Venus.v
theories/P_Venus.v
theories/P_VenusImages.v
theories/Properties_Venus.v
theories/M_Config.v
theories/S_Config.v
theories/P_Config.v
theories/P_Bins.v
theories/P_Json.v
theories/P_Load.v
theories/Properties_Config.v
theories/M_Lib.v
theories/S_Lib.v
theories/P_Lib.v
theories/P_LibHit.v
theories/P_LibMore.v
theories/Properties_Lib.v
theories/M_StreamCli.v
theories/S_StreamCli.v
theories/P_StreamCli.v
theories/P_StreamRead.v
theories/P_StreamKeep.v
theories/P_StreamSys.v
theories/P_StreamRun.v
theories/Properties_StreamCli.v
theories/M_Dbscan.v
theories/S_Dbscan.v
theories/P_DbsFloat.v
theories/P_DbsMerge.v
theories/P_DbsTime.v
theories/P_DbsClass.v
theories/P_DbsPlane.v
theories/P_DbsInst.v
theories/Properties_Dbscan.v
theories/S_DbsEvents.v
theories/P_DbsEvents.v
theories/P_DbsComps.v
theories/Properties_DbsEvents.v
theories/M_Display.v
theories/S_Display.v
theories/P_DisplayHit.v
theories/P_DisplayRead.v
theories/P_DisplayFile.v
theories/P_DisplayRing.v
theories/P_DisplayWork.v
theories/S_DisplayPixel.v
theories/P_DisplayPixel.v
theories/P_DisplayThreads.v
theories/P_DisplayAll.v
theories/Properties_Display.v
theories/M_DisplayWin.v
theories/S_DisplayWin.v
theories/P_DisplayWin.v
theories/Properties_DisplayWin.v
theories/M_LibIO.v
theories/S_LibIO.v
theories/P_LibIO.v
theories/Properties_LibIO.v
theories/M_Gui.v
theories/S_Gui.v
theories/P_Gui.v
theories/Properties_Gui.v
theories/S_Main.v
theories/P_Main.v
theories/Properties_Main.v
theories/S_Gauss.v
theories/P_Gauss.v
theories/Properties_Gauss.v
theories/M_Cam.v
theories/S_Cam.v
theories/P_Cam.v
theories/Properties_Cam.v
theories/M_Mmap.v
theories/S_Mmap.v
theories/P_Mmap.v
theories/Properties_Mmap.v
theories/M_Program.v
theories/S_Program.v
theories/P_Program.v
theories/Properties_Program.v
theories/M_GdcMain.v
theories/S_GdcMain.v
theories/P_GdcMain.v
theories/Properties_GdcMain.v
theories/M_VenusMain.v
theories/S_VenusMain.v
theories/P_VenusMain.v
theories/Properties_VenusMain.v
theories/M_StreamMain.v
theories/S_StreamMain.v
theories/P_StreamMain.v
theories/Properties_StreamMain.v
theories/M_Bench.v
theories/S_Bench.v
theories/P_Bench.v
theories/Properties_Bench.v
theories/S_Recover.v
theories/P_Recover.v
theories/Properties_Recover.v
theories/M_Fake.v
theories/S_Fake.v
theories/P_Fake.v
theories/Properties_Fake.v
theories/M_Text.v
theories/S_Text.v
theories/P_Text.v
theories/P_TextTimes.v
theories/Properties_Text.v
theories/S_TextProgram.v
theories/P_TextProgram.v
theories/Properties_TextProgram.v
theories/S_Measure.v
theories/P_Measure.v
theories/P_MeasureHist.v
theories/S_MeasureShow.v
theories/P_MeasureShow.v
theories/S_Events.v
theories/P_Events.v
theories/P_EventsProgram.v
theories/Properties_Measure.v
theories/Properties_Events.v
theories/S_Images.v
theories/P_Images.v
theories/Properties_Images.v
theories/S_Watch.v
theories/P_Watch.v
theories/Properties_Watch.v
theories/M_Version.v
theories/S_Version.v
theories/P_Version.v
theories/Properties_Version.v
theories/S_Reduce.v
theories/P_Reduce.v
theories/Properties_Reduce.v
theories/S_Streamed.v
theories/P_Streamed.v
theories/Properties_Streamed.v
theories/S_Shown.v
theories/P_Shown.v
theories/Properties_Shown.v
theories/M_BenchSh.v
theories/S_BenchSh.v
theories/P_BenchSh.v
theories/Properties_BenchSh.v
theories/S_Order.v
theories/P_Order.v
theories/P_OrderDbs.v
theories/Properties_Order.v
theories/S_Told.v
theories/P_Told.v
theories/Properties_Told.v
theories/S_Benched.v
theories/P_Benched.v
theories/Properties_Benched.v
theories/S_Motion.v
theories/P_Motion.v
theories/Properties_Motion.v
theories/P_Append.v
theories/Properties_Append.v
theories/S_MinSize.v
theories/P_MinSize.v
theories/Properties_MinSize.v
theories/S_Conserve.v
theories/P_Conserve.v
theories/Properties_Conserve.v
theories/S_Coarse.v
theories/P_Coarse.v
theories/Properties_Coarse.v
theories/S_Agree.v
theories/P_Agree.v
theories/Properties_Agree.v
theories/P_Scaled.v
theories/Properties_Scaled.v
theories/S_Same.v
theories/P_Same.v
theories/Properties_Same.v
theories/P_Parts.v
theories/Properties_Parts.v
theories/S_Damage.v
theories/P_Damage.v
theories/Properties_Damage.v
theories/S_Cut.v
theories/P_Cut.v
theories/Properties_Cut.v
theories/S_Resplit.v
theories/P_Resplit.v
theories/Properties_Resplit.v
theories/S_Resync.v
theories/P_Resync.v
theories/Properties_Resync.v
theories/S_Again.v
theories/P_Again.v
theories/Properties_Again.v
theories/Tests_Repo.v
