-Q theories Verif
theories/Base.v
theories/PyStr.v
theories/M_Files.v
theories/M_Machinery.v
theories/M_Reader.v
theories/L_Base.v
theories/S_Reader.v
theories/L_Machinery.v
theories/S_Coll.v
theories/L_Reader.v
theories/L_GetArray.v
theories/M_Glob.v
theories/M_Select.v
theories/L_Select.v
theories/L_Array2.v
theories/L_Trains.v
theories/L_Field.v
theories/L_Check.v
theories/Ex_Files.v
theories/P_Reader.v
theories/S_Select.v
theories/L_SelTrains.v
theories/L_SelStep.v
theories/S_Glob.v
theories/L_Glob.v
theories/P_SelTrains.v
theories/P_SelStep.v
theories/S_Avail.v
theories/L_Sel2.v
theories/L_Sel3.v
theories/S_Hist.v
theories/L_Hist.v
theories/L_Union.v
theories/P_Select.v
theories/S_Open.v
theories/L_Open.v
theories/P_Open.v
theories/M_Series.v
theories/S_Series.v
theories/L_Series.v
theories/P_Series.v
theories/P_Field.v
theories/M_Writer.v
theories/S_Writer.v
theories/L_Writer.v
theories/L_Writer2.v
theories/L_Writer3.v
theories/L_Writer4.v
theories/L_Writer5.v
theories/L_Writer6.v
theories/L_Writer7.v
theories/L_Check2.v
theories/P_Writer.v
theories/P_WriterOrder.v
theories/M_Validation.v
theories/S_Validation.v
theories/L_Validation.v
theories/L_Validation2.v
theories/P_Validation.v
theories/M_FilesMap.v
theories/S_FilesMap.v
theories/L_FilesMap.v
theories/L_FilesMap2.v
theories/L_FilesMap3.v
theories/P_FilesMap.v
theories/M_Nd.v
theories/M_Stacking.v
theories/S_Stacking.v
theories/L_Stacking.v
theories/L_Stacking2.v
theories/L_Stacking3.v
theories/L_Stacking4.v
theories/P_Stacking.v
theories/M_Components.v
theories/S_Components.v
theories/L_Components.v
theories/L_Components2.v
theories/L_Components3.v
theories/L_Components4.v
theories/L_Components5.v
theories/L_Components6.v
theories/L_Components7.v
theories/L_Components8.v
theories/L_Components9.v
theories/L_Components10.v
theories/L_Components11.v
theories/L_Components12.v
theories/L_Check3.v
theories/P_Components.v
theories/M_Cxi.v
theories/S_Cxi.v
theories/L_Cxi.v
theories/L_Cxi2.v
theories/L_Cxi3.v
theories/L_Cxi4.v
theories/L_Cxi5.v
theories/L_Cxi6.v
theories/L_Cxi7.v
theories/P_Cxi.v
theories/M_Export.v
theories/S_Export.v
theories/L_Export1.v
theories/L_Export2.v
theories/L_Export3.v
theories/L_Export4.v
theories/L_Export5.v
theories/L_Export6.v
theories/P_Export.v
theories/M_Stream.v
theories/S_Stream.v
theories/L_Stream1.v
theories/L_Stream2.v
theories/L_Stream3.v
theories/P_Stream.v
theories/S_Frame.v
theories/L_Frame.v
theories/P_Frame.v
theories/M_Geom.v
theories/S_Geom.v
theories/L_Geom1.v
theories/L_Geom2.v
theories/L_Geom3.v
theories/L_Geom4.v
theories/L_Geom5.v
theories/L_Geom6.v
theories/M_Crystfel.v
theories/S_Crystfel.v
theories/L_Crystfel.v
theories/L_Crystfel2.v
theories/P_Geom.v
theories/M_OpenRun.v
theories/S_OpenRun.v
theories/L_OpenRun.v
theories/M_QuickView.v
theories/L_QuickView.v
theories/M_Repr.v
theories/S_Repr.v
theories/L_Repr.v
theories/P_Misc.v
theories/M_Roi.v
theories/S_Roi.v
theories/L_Roi.v
theories/P_Roi.v
theories/M_Args.v
theories/S_Args.v
theories/L_Args.v
theories/P_Args.v
theories/M_Info.v
theories/S_Info.v
theories/L_Info.v
theories/P_Info.v
theories/M_OldGeom.v
theories/S_OldGeom.v
theories/L_OldGeom.v
theories/P_OldGeom.v
theories/M_Lsxfel.v
theories/S_Lsxfel.v
theories/L_Lsxfel.v
theories/L_Lsxfel2.v
theories/L_Lsxfel3.v
theories/P_Lsxfel.v
theories/M_Grid.v
theories/S_Grid.v
theories/L_Grid.v
theories/L_Grid2.v
theories/L_Grid3.v
theories/P_Grid.v
theories/M_MakeCxi.v
theories/S_MakeCxi.v
theories/L_MakeCxi.v
theories/L_MakeCxi2.v
theories/P_MakeCxi.v
theories/M_Frame.v
theories/S_Frame2.v
theories/L_Frame2.v
theories/P_Frame2.v
theories/M_CxiFile.v
theories/S_CxiFile.v
theories/L_CxiFile.v
theories/P_CxiFile.v
theories/M_Validate.v
theories/S_Report.v
theories/L_Report.v
theories/L_Validate.v
theories/P_Report.v
theories/M_Handles.v
theories/S_Handles.v
theories/L_Handles.v
theories/L_Handles2.v
theories/L_Handles3.v
theories/P_Handles.v
theories/M_H5Index.v
theories/S_H5Index.v
theories/L_H5Index.v
theories/L_H5Index2.v
theories/P_H5Index.v
theories/L_Copies.v
theories/P_Copies.v
theories/M_Regex.v
theories/M_CachePath.v
theories/S_CachePath.v
theories/L_CachePath.v
theories/P_CachePath.v
theories/S_TrainAlgebra.v
theories/L_TrainAlgebra.v
theories/P_TrainAlgebra.v
theories/M_Json.v
theories/S_Json.v
theories/L_Json.v
theories/L_Json2.v
theories/L_Json3.v
theories/L_Json4.v
theories/P_Json.v
theories/M_Msgpack.v
theories/S_Msgpack.v
theories/L_Msgpack.v
theories/L_Msgpack2.v
theories/P_Msgpack.v
theories/M_Utils.v
theories/S_Utils.v
theories/L_Utils.v
theories/P_Utils.v
theories/P_UtilsNeg.v
theories/M_Plot.v
theories/S_Plot.v
theories/L_Plot.v
theories/L_Plot2.v
theories/P_Plot.v
theories/M_Serve.v
theories/P_Serve.v
theories/P_Migrate.v
theories/M_OldPlot.v
theories/P_OldPlot.v
theories/P_Agree.v
theories/M_InfoText.v
theories/S_InfoText.v
theories/P_InfoText.v
theories/M_GeomNd.v
theories/S_GeomNd.v
theories/L_GeomNd.v
theories/P_GeomNd.v
theories/M_DetDims.v
theories/S_DetDims.v
theories/L_DetDims.v
theories/L_DetDims2.v
theories/P_DetDims.v
theories/M_LsText.v
theories/S_LsText.v
theories/L_LsText.v
theories/L_LsText2.v
theories/P_LsText.v
theories/M_ValText.v
theories/S_ValText.v
theories/P_ValText.v
theories/M_Messages.v
theories/S_Messages.v
theories/P_Messages.v
theories/M_MsgpackNp.v
theories/S_MsgpackNp.v
theories/L_MsgpackNp.v
theories/P_MsgpackNp.v
theories/P_GeomErrors.v
theories/M_CrystText.v
theories/S_CrystText.v
theories/L_CrystText.v
theories/L_CrystText2.v
theories/L_CrystText3.v
theories/P_CrystText.v
theories/M_GeomFloat.v
theories/S_GeomFloat.v
theories/L_GeomFloat.v
theories/L_GeomFloat2.v
theories/L_GeomFloat3.v
theories/L_GeomFloat4.v
theories/L_GeomFloat5.v
theories/L_GeomFloat6.v
theories/P_GeomFloat.v
theories/L_GeomMetres.v
theories/P_GeomFlat.v
theories/P_GeomMetres.v
theories/M_CrystFloat.v
theories/S_CrystFloat.v
theories/L_CrystFloat.v
theories/L_CrystFloat2.v
theories/P_CrystFloat.v
theories/P_CrystMetres.v
theories/M_OldFloat.v
theories/S_OldFloat.v
theories/L_OldFloat.v
theories/P_OldFloat.v
theories/M_PosFloat.v
theories/S_PosFloat.v
theories/L_PosFloat.v
theories/P_PosFloat.v
theories/P_PosMetres.v
theories/P_PosMade.v
