-Q theories Verif
theories/Base.v
theories/PyStr.v
theories/PyFloat.v
theories/PyDate.v
theories/PyRepr.v
theories/PyStrftime.v
theories/M_Common.v
theories/M_Header.v
theories/M_Obs2.v
theories/S_Text.v
theories/P_Str.v
theories/P_Float.v
theories/P_Repr1.v
theories/P_Repr2.v
theories/P_Sec.v
theories/S_Time.v
theories/P_Date.v
theories/P_Common.v
theories/S_Obs2.v
theories/P_Obs2.v
theories/P_Obs2b.v
theories/P_Obs2c.v
theories/S_Open2.v
theories/P_Open2.v
theories/P_Open2b.v
theories/P_Interval.v
theories/P_View2.v
theories/S_Errors2.v
theories/P_Errors2.v
theories/W_Obs2.v
theories/E_Obs2.v
theories/P_Prop2.v
theories/T_Obs2.v
theories/M_Label.v
theories/S_Label.v
theories/P_Label.v
theories/T_Label.v
theories/M_Rec.v
theories/S_Rec.v
theories/P_Div.v
theories/P_Tsn.v
theories/P_Rec.v
theories/T_Rec.v
theories/PyPath.v
theories/M_Text.v
theories/S_Out.v
theories/P_Out.v
theories/P_Out2.v
theories/T_Out.v
theories/M_Cfg.v
theories/S_Cfg.v
theories/P_Cfg.v
theories/P_Cfg2.v
theories/T_Cfg.v
theories/PyRegex.v
theories/P_Regex.v
theories/M_Names.v
theories/S_Names.v
theories/P_Names.v
theories/P_Names2.v
theories/P_Names3.v
theories/P_Names4.v
theories/P_Names5.v
theories/M_Xyz.v
theories/S_Xyz.v
theories/P_Xyz.v
theories/P_Names6.v
theories/T_Names.v
theories/M_Nav.v
theories/S_Nav.v
theories/P_Nav.v
theories/P_Nav2.v
theories/P_Nav3.v
theories/P_Nav4.v
theories/P_Nav5.v
theories/E_Nav.v
theories/T_Nav.v
theories/M_NmUtils.v
theories/S_NmUtils.v
theories/P_NmUtils.v
theories/P_NmUtils2.v
theories/T_NmUtils.v
theories/M_Obs3.v
theories/S_Obs3.v
theories/P_Obs3.v
theories/P_Obs3b.v
theories/P_Obs3c.v
theories/P_Obs3d.v
theories/P_Obs3e.v
theories/P_Obs3f.v
theories/E_Obs3.v
theories/T_Obs3.v
theories/S_Header.v
theories/P_Header.v
theories/E_Header.v
theories/T_Header.v
theories/M_Num.v
theories/M_Tec.v
theories/S_Tec.v
theories/P_Tec.v
theories/P_TecF.v
theories/P_TecE.v
theories/P_TecG.v
theories/E_Tec.v
theories/T_Tec.v
theories/M_Sat.v
theories/S_Sat.v
theories/P_Sat1.v
theories/P_Sat2.v
theories/P_Sat3.v
theories/P_Sat4.v
theories/P_Sat5.v
theories/S_SatF.v
theories/P_Kepler.v
theories/P_Sat6.v
theories/P_Sat7.v
theories/T_Sat.v
theories/M_Main.v
theories/S_Main.v
theories/S_Fresh.v
theories/P_Main1.v
theories/P_Main2.v
theories/P_Main3.v
theories/P_Main4.v
theories/P_Main5.v
theories/P_Main6.v
theories/P_Main7.v
theories/P_Main8.v
theories/P_Main9.v
theories/P_Main10.v
theories/P_Main11.v
theories/P_Main12.v
theories/P_Main13.v
theories/E_Main.v
theories/E_Main2.v
theories/T_Main.v
theories/M_Run.v
theories/S_Run.v
theories/P_Run1.v
theories/P_Run2.v
theories/P_Run3.v
theories/P_Run4.v
theories/P_Run5.v
theories/P_Run6.v
theories/P_Run7.v
theories/P_Run8.v
theories/E_Run.v
theories/T_Run.v
theories/M_Disk.v
theories/S_Disk.v
theories/P_Disk1.v
theories/P_Disk2.v
theories/P_Disk3.v
theories/P_Disk4.v
theories/P_Disk5.v
theories/E_Disk.v
theories/T_Disk.v
theories/M_Expand.v
theories/S_Expand.v
theories/P_Expand1.v
theories/P_Expand2.v
theories/P_Expand3.v
theories/P_Expand4.v
theories/P_Expand5.v
theories/E_Expand.v
theories/E_Expand2.v
theories/T_Expand.v
theories/S_Show.v
theories/S_When.v
theories/P_Show1.v
theories/P_Show2.v
theories/P_Show3.v
theories/P_When.v
theories/P_When2.v
theories/E_Show.v
theories/T_Show.v
theories/S_End.v
theories/P_End1.v
theories/P_End2.v
theories/P_End3.v
theories/P_End4.v
theories/P_End5.v
theories/E_End.v
theories/S_Tell.v
theories/P_Tell.v
theories/E_Tell.v
theories/T_End.v
theories/M_Fault.v
theories/S_Fault.v
theories/P_Fault.v
theories/E_Fault.v
theories/T_Fault.v
theories/M_Log.v
theories/S_Log.v
theories/P_Log1.v
theories/P_Log2.v
theories/P_Log3.v
theories/P_Log4.v
theories/E_Log.v
theories/T_Log.v
theories/S_Alone.v
theories/P_Alone.v
theories/P_Alone2.v
theories/E_Alone.v
theories/T_Alone.v
theories/S_Settings.v
theories/P_Set1.v
theories/P_Set2.v
theories/P_Set3.v
theories/E_Set.v
theories/T_Set.v
theories/S_Systems.v
theories/P_Systems.v
theories/E_Systems.v
theories/T_Systems.v
theories/S_Sample.v
theories/P_Sample.v
theories/E_Sample.v
theories/T_Sample.v
theories/S_Short.v
theories/P_Short.v
theories/P_Short2.v
theories/P_Short3.v
theories/E_Short.v
theories/T_Short.v
