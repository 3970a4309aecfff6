-Q theories Verif
theories/PyBase.v
theories/PyBaseFacts.v
theories/M_Utils.v
theories/M_Flat.v
theories/M_Pams.v
theories/Spec_Pams.v
theories/P_Pams.v
theories/P_Flat.v
theories/P_CarbonPams.v
theories/P_PamsMain.v
theories/P_FlatCanon.v
theories/P_PamsDefaults.v
theories/Properties_Pams.v
theories/Num.v
theories/M_TwoLayer.v
theories/Spec_TwoLayer.v
theories/Spec_TwoLayerRuns.v
theories/P_TwoLayer.v
theories/P_TwoLayer2.v
theories/Properties_TwoLayer.v
theories/M_UDM.v
theories/Spec_UDM.v
theories/Spec_UDMRuns.v
theories/P_UDM.v
theories/P_UDM2.v
theories/P_UDM3.v
theories/P_UDM4.v
theories/P_UDM5.v
theories/P_UDM6.v
theories/P_UDM7.v
theories/P_UDM8.v
theories/P_UDM9.v
theories/P_UDM10.v
theories/P_UDM11.v
theories/Properties_UDM.v
theories/M_RFuns.v
theories/M_Carbon.v
theories/M_CarbonBack.v
theories/M_CarbonBox.v
theories/Spec_Carbon.v
theories/P_Carbon.v
theories/P_CarbonBack.v
theories/P_Carbon2.v
theories/P_Carbon3.v
theories/P_Carbon4.v
theories/P_Carbon5.v
theories/P_Carbon6.v
theories/P_RFuns.v
theories/P_CarbonMisc.v
theories/P_CarbonConv.v
theories/Properties_Carbon.v
theories/M_Gas.v
theories/M_Forcing.v
theories/Spec_Gas.v
theories/Spec_Forc.v
theories/P_Gas.v
theories/P_Gas2.v
theories/P_Gas3.v
theories/P_Gas4.v
theories/P_Forc.v
theories/P_Forc2.v
theories/P_Forc3.v
theories/P_Forc4.v
theories/P_Forc5.v
theories/Properties_Gas.v
theories/P_Forc6.v
theories/P_Forc7.v
theories/Properties_Forcing.v
theories/M_Driver.v
theories/Spec_Driver.v
theories/P_Driver.v
theories/P_Driver2.v
theories/P_Driver3.v
theories/P_Driver4.v
theories/Properties_Driver.v
theories/M_Input.v
theories/Spec_Input.v
theories/P_Input.v
theories/P_Input2.v
theories/P_Input3.v
theories/P_Input4.v
theories/P_Input5.v
theories/Properties_Input.v
theories/M_Names.v
theories/Spec_Names.v
theories/P_Names.v
theories/P_Names2.v
theories/Properties_Names.v
theories/M_Parallel.v
theories/M_Whole.v
theories/Spec_Parallel.v
theories/P_Parallel.v
theories/P_Parallel2.v
theories/P_Parallel3.v
theories/P_Parallel4.v
theories/Properties_Parallel.v
theories/M_Distro.v
theories/Spec_Distro.v
theories/P_Distro.v
theories/P_Distro2.v
theories/P_Distro3.v
theories/Properties_Distro.v
theories/M_Results.v
theories/M_Reader.v
theories/Spec_Reader.v
theories/Spec_Results.v
theories/P_Reader.v
theories/P_Reader2.v
theories/P_Reader3.v
theories/P_Reader4.v
theories/P_Results.v
theories/P_Coupled.v
theories/P_Results2.v
theories/Properties_Reader.v
theories/Properties_Results.v
theories/Spec_Coupled.v
theories/P_Coupled2.v
theories/P_Coupled3.v
theories/P_Coupled4.v
theories/P_Coupled5.v
theories/P_Coupled6.v
theories/P_Coupled7.v
theories/P_Coupled8.v
theories/Spec_Span.v
theories/P_Span.v
theories/P_Span2.v
theories/P_Span3.v
theories/P_Span4.v
theories/P_Span5.v
theories/P_Span6.v
theories/P_Span7.v
theories/Properties_Coupled.v
theories/Properties_Span.v
theories/M_BoxRun.v
theories/Spec_Box.v
theories/P_Box.v
theories/P_AnyCarbon.v
theories/P_Box2.v
theories/P_Box3.v
theories/P_Box4.v
theories/Properties_Box.v
theories/Spec_TwoLayerOrder.v
theories/P_TwoLayerOrder.v
theories/Properties_TwoLayerOrder.v
theories/Spec_Climate.v
theories/P_Climate.v
theories/P_Climate2.v
theories/Properties_Climate.v
theories/Spec_Rerun.v
theories/P_Rerun.v
theories/P_Rerun2.v
theories/P_Natural.v
theories/Properties_Rerun.v
theories/Spec_Files.v
theories/P_Files.v
theories/Properties_Files.v
theories/M_Plots.v
theories/Spec_Plots.v
theories/P_Plots.v
theories/P_Plots2.v
theories/Properties_Plots.v
theories/Spec_Whole.v
theories/P_Whole.v
theories/Properties_Whole.v
theories/Spec_Numbers.v
theories/P_Numbers.v
theories/Properties_Numbers.v
theories/M_WholeBox.v
theories/Spec_WholeBox.v
theories/P_WholeBox.v
theories/Properties_WholeBox.v
theories/M_Reading.v
theories/Spec_Reading.v
theories/P_Reading.v
theories/P_Reading2.v
theories/P_Reading3.v
theories/P_Reading4.v
theories/P_Needs.v
theories/P_Reading5.v
theories/P_Reading6.v
theories/P_Reading7.v
theories/Properties_Reading.v
theories/Spec_Share.v
theories/P_CarbonFrame.v
theories/P_BoxGiven.v
theories/Properties_Share.v
theories/M_DistroRun.v
theories/Spec_DistroRun.v
theories/P_DistroRun.v
theories/Properties_DistroRun.v
theories/Spec_Warm.v
theories/P_Warm.v
theories/P_Warm2.v
theories/P_Warm3.v
theories/P_Warm5.v
theories/P_Warm4.v
theories/Properties_Warm.v
theories/Spec_Decay.v
theories/P_Decay.v
theories/Properties_Decay.v
theories/Spec_Longer.v
theories/P_Longer.v
theories/P_Longer2.v
theories/Properties_Longer.v
theories/P_Natural2.v
theories/Properties_Natural.v
