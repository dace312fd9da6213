-Q theories Verif
theories/Prelude.v
theories/PreludeFacts.v
theories/NdArray.v
theories/GData_Model.v
theories/GData_Props.v
theories/Write_Model.v
theories/Write_Props.v
theories/DataSpace_Model.v
theories/DataSpace_Spec.v
theories/DataSpace_Proofs.v
theories/DataSpace_Proofs2.v
theories/DataSpace_Proofs3.v
theories/DataSpace_Props.v
theories/WriteCmd_Model.v
theories/WriteCmd_Props.v
theories/Sort.v
theories/Cli_Model.v
theories/Cli_Props.v
theories/Select_Model.v
theories/Select_Spec.v
theories/Select_Proofs.v
theories/Select_Props.v
theories/Gkyl_Model.v
theories/Gkyl_Spec.v
theories/Gkyl_Proofs.v
theories/Gkyl_Proofs2.v
theories/Gkyl_Proofs3.v
theories/Gkyl_Props.v
theories/Ev_Model.v
theories/Ev_Arith.v
theories/Ev_Spec.v
theories/Ev_Props.v
theories/Ev_Props2.v
theories/Ev_Props3.v
theories/Ev_Props4.v
theories/Ev_Props5.v
theories/Collect_Model.v
theories/Collect_Props.v
theories/Dg_Poly.v
theories/Dg_TabI.v
theories/Dg_TabD.v
theories/Dg_Model.v
theories/Dg_Spec.v
theories/Dg_Proofs.v
theories/Dg_Proofs2.v
theories/Dg_Props.v
theories/Dg_Props2.v
theories/Dg_Props3.v
theories/Dg_Sem.v
theories/Dg_Int.v
theories/Dg_GramTab.v
theories/Dg_Gram.v
theories/Dg_Props4.v
theories/Dg_Props5.v
theories/Dg_Nodal.v
theories/Dg_Props6.v
theories/Dg_Props7.v
theories/Tools_Arr.v
theories/Tools_Model.v
theories/Tools_Proofs.v
theories/Tools_Proofs2.v
theories/Tools_Props.v
theories/Tools_Props2.v
theories/Tools_Props3.v
theories/Calc_Model.v
theories/Calc_Spec.v
theories/Calc_Proofs.v
theories/Calc_Props.v
theories/Calc_Props2.v
theories/Calc_Props3.v
theories/Gk_Model.v
theories/Gk_Spec.v
theories/Gk_Props.v
theories/Gk_Proofs.v
theories/Gk_Props2.v
theories/Gk_Props3.v
theories/Gk_Props4.v
theories/Gk_Props5.v
theories/Plot_Model.v
theories/Plot_Props.v
theories/Flash_Model.v
theories/Flash_Props.v
theories/Select_Props2.v
theories/Params_Model.v
theories/Params_Props.v
theories/Pkpm_Model.v
theories/Pkpm_Props.v
theories/Spawn_Model.v
theories/Spawn_Props.v
theories/Kern_Exp.v
theories/Kern_Tab.v
theories/Kern_Model.v
theories/Kern_Props.v
theories/Readers_Model.v
theories/Readers_Props.v
theories/Readers_Props2.v
theories/Ev_Props6.v
theories/EvCmd_Model.v
theories/EvCmd_Props.v
theories/EvCmd_Props2.v
theories/DgCmd_Model.v
theories/Dg_Props8.v
theories/Draw_Model.v
theories/Draw_Spec.v
theories/Draw_Proofs.v
theories/Draw_Proofs2.v
theories/Draw_Proofs3.v
theories/Draw_Props.v
theories/Draw_Props2.v
theories/Draw_Props3.v
theories/Multi_Model.v
theories/Multi_Proofs.v
theories/Multi_Props.v
theories/Multi_Props2.v
theories/Multi_Proofs2.v
theories/Multi_Props3.v
theories/Zip_Model.v
theories/Zip_Proofs.v
theories/Zip_Props.v
theories/Zip_Props2.v
theories/Zip_Props3.v
theories/Range_Model.v
theories/Range_Props.v
theories/PlotCmd_Model.v
theories/PlotCmd_Props.v
theories/PlotCmd_Props2.v
theories/PlotCmd_Props3.v
theories/Anim_Model.v
theories/Anim_Proofs.v
theories/Anim_Props.v
theories/Anim_Props2.v
theories/Anim_Props3.v
theories/Label_Model.v
theories/Label_Spec.v
theories/Label_Proofs.v
theories/Label_Proofs2.v
theories/Label_Props.v
theories/Label_Props2.v
theories/Label_Props3.v
theories/DgCmd_Props.v
theories/Fft_Model.v
theories/Fft_Dft.v
theories/Fft_Spec.v
theories/Fft_Proofs.v
theories/Fft_Props.v
theories/Fft_Props2.v
theories/Fft_Props3.v
theories/Fft_Props4.v
theories/Fft_Props5.v
theories/Growth_Model.v
theories/Growth_Props.v
theories/Growth_Props2.v
theories/Listing_Model.v
theories/Listing_Props.v
theories/Style_Model.v
theories/Style_Props.v
theories/Style_Props2.v
theories/Diag_Model.v
theories/Diag_Props.v
theories/Diag_Props2.v
theories/Grid_Model.v
theories/Grid_Props.v
theories/Info_Model.v
theories/Info_Props.v
theories/RelCmd_Model.v
theories/RelCmd_Props.v
theories/Distf_Model.v
theories/Distf_Props.v
theories/Nodes_Model.v
theories/Nodes_Props.v
theories/Nodes_Props2.v
theories/Traj_Model.v
theories/Traj_Props.v
theories/Extract_Model.v
theories/Extract_Props.v
theories/Recov_Model.v
theories/Recov_Props.v
theories/Float_Model.v
theories/Float_Props.v
theories/FloatQ_Model.v
theories/FloatQ_Props.v
theories/Twist_Model.v
theories/Twist_Props.v
theories/Twist2_Props.v
theories/Cgl_Model.v
theories/Cgl_Props.v
theories/Butter_Model.v
theories/Butter_Proofs.v
theories/Butter_Design.v
theories/Butter_Props.v
theories/Pipe_Model.v
theories/Pipe_Spec.v
theories/Pipe_Proofs.v
theories/Pipe_Props.v
theories/PlotOpt_Model.v
theories/PlotOpt_Props.v
theories/Msgpack_Model.v
theories/Msgpack_Spec.v
theories/Msgpack_Proofs.v
theories/Msgpack_Props.v
theories/Conform_Data.v
theories/Conform_Tests.v
theories/Fv_Model.v
theories/Fv_Props.v
theories/Show_Model.v
theories/Show_Spec.v
theories/Show_Proofs.v
theories/Show_Props.v
theories/Show_Props2.v
theories/Input_Model.v
theories/Input_Props.v
theories/Amount_Spec.v
theories/Amount_Model.v
theories/Amount_Proofs.v
theories/Amount_Proofs2.v
theories/Amount_Props.v
theories/Cut_Proofs.v
theories/Cut_Proofs2.v
theories/Cut_Props.v
theories/Part_Model.v
theories/Part_Proofs.v
theories/Part_Props.v
theories/Slope_Model.v
theories/Slope_Spec.v
theories/Slope_Proofs.v
theories/Slope_Props.v
theories/Trace_Model.v
theories/Trace_Spec.v
theories/Trace_Proofs.v
theories/Trace_Props.v
theories/FGrid_Model.v
theories/FGrid_Spec.v
theories/FGrid_Proofs.v
theories/FGrid_Props.v
theories/Foreign_Props.v
theories/FSel_Model.v
theories/FSel_Props.v
theories/Digits_Model.v
theories/Digits_Spec.v
theories/Digits_Proofs.v
theories/Digits_Props.v
theories/FInt_Model.v
theories/FInt_Spec.v
theories/FInt_Proofs.v
theories/FInt_Props.v
theories/FDg_Spec.v
theories/FDg_Props.v
theories/FDg_Model.v
theories/FDg_Proofs.v
theories/FDgTab_Props.v
theories/FNum_Model.v
theories/FNum_Spec.v
theories/FNum_Props.v
theories/FNumInt_Spec.v
theories/FNumInt_Props.v
theories/FSlope_Props.v
theories/FGrad_Props.v
theories/FTool_Model.v
theories/FTool_Props.v
