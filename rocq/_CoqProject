-Q theories Verif
theories/M_Bgm.v
theories/M_CC.v
theories/M_Cal.v
theories/M_Ccp.v
theories/M_Coh.v
theories/M_Compare.v
theories/M_Corr.v
theories/M_Crust.v
theories/M_Cursor.v
theories/M_Db.v
theories/M_DbText.v
theories/M_Dgs.v
theories/M_Erf.v
theories/M_Ext.v
theories/M_Faa.v
theories/M_FaaFl.v
theories/M_Fft.v
theories/M_Filt.v
theories/M_Float.v
theories/M_Four.v
theories/M_Gauss.v
theories/M_Ini.v
theories/M_Level.v
theories/M_Line.v
theories/M_Meters.v
theories/M_Motion.v
theories/M_Mru.v
theories/M_Nan.v
theories/M_Nav.v
theories/M_Nmea.v
theories/M_Np.v
theories/M_Other.v
theories/M_Profile.v
theories/M_Py.v
theories/M_ReadNav.v
theories/M_Rmba.v
theories/M_Round.v
theories/M_Sat.v
theories/M_Script.v
theories/M_Seg.v
theories/M_Serial.v
theories/M_Status.v
theories/M_Str.v
theories/M_SyncFl.v
theories/M_Table.v
theories/M_Therm.v
theories/M_Thick.v
theories/M_Tide.v
theories/M_TideFl.v
theories/M_Toml.v
theories/M_Up.v
theories/S_Args.v
theories/S_Base.v
theories/S_Bgm.v
theories/S_CC.v
theories/S_Cal.v
theories/S_Ccp.v
theories/S_Coh.v
theories/S_Compare.v
theories/S_Corr.v
theories/S_Crust.v
theories/S_Cursor.v
theories/S_Db.v
theories/S_Dgs.v
theories/S_Ext.v
theories/S_Faa.v
theories/S_Filt.v
theories/S_Four.v
theories/S_Gauss.v
theories/S_Ini.v
theories/S_Level.v
theories/S_Motion.v
theories/S_Mru.v
theories/S_Nan.v
theories/S_Nav.v
theories/S_NavSame.v
theories/S_Nmea.v
theories/S_Other.v
theories/S_Profile.v
theories/S_Raises.v
theories/S_ReadNav.v
theories/S_Rmba.v
theories/S_Round.v
theories/S_Sat.v
theories/S_Script.v
theories/S_Seg.v
theories/S_Serial.v
theories/S_Status.v
theories/S_Str.v
theories/S_SyncFl.v
theories/S_Table.v
theories/S_Therm.v
theories/S_Thick.v
theories/S_Tide.v
theories/S_Toml.v
theories/S_Up.v
theories/S_Written.v
theories/L_Base.v
theories/L_Bgm.v
theories/L_CC.v
theories/L_Cal.v
theories/L_Coh.v
theories/L_Corr.v
theories/L_Crust.v
theories/L_Cursor.v
theories/L_Dateline.v
theories/L_Dgs.v
theories/L_DgsRaw.v
theories/L_Erf.v
theories/L_Faa.v
theories/L_Fft.v
theories/L_Filt.v
theories/L_Float.v
theories/L_Four.v
theories/L_Gauss.v
theories/L_Ini.v
theories/L_Level.v
theories/L_Nan.v
theories/L_Nav.v
theories/L_Nav2.v
theories/L_Nmea.v
theories/L_Node.v
theories/L_Np.v
theories/L_Num.v
theories/L_Ols.v
theories/L_Other.v
theories/L_PiIrr.v
theories/L_ReadNav.v
theories/L_Revelle.v
theories/L_Round.v
theories/L_RoundGauss.v
theories/L_Rows.v
theories/L_Script.v
theories/L_Seg.v
theories/L_Status.v
theories/L_Str.v
theories/L_Table.v
theories/L_Therm.v
theories/L_Thick.v
theories/L_Tide.v
theories/L_TideFl.v
theories/L_Toml.v
theories/L_Up.v
theories/L_Written.v
theories/P_Args.v
theories/P_Bgm.v
theories/P_CC.v
theories/P_Calib.v
theories/P_Ccp.v
theories/P_Coh.v
theories/P_Compare.v
theories/P_CompareCase.v
theories/P_Corr.v
theories/P_Crust.v
theories/P_Cursor.v
theories/P_Db.v
theories/P_Dgs.v
theories/P_Equator.v
theories/P_Ext.v
theories/P_Faa.v
theories/P_FaaFl.v
theories/P_Filt.v
theories/P_Fit.v
theories/P_Float.v
theories/P_Four.v
theories/P_Gauss.v
theories/P_Ini.v
theories/P_Level.v
theories/P_Line.v
theories/P_LineCase.v
theories/P_Meters.v
theories/P_Motion.v
theories/P_MotionCase.v
theories/P_Mru.v
theories/P_Nan.v
theories/P_Nav.v
theories/P_NavSame.v
theories/P_Nmea.v
theories/P_Other.v
theories/P_Profile.v
theories/P_ProfileCase.v
theories/P_ProfileShift.v
theories/P_Raises.v
theories/P_ReadNav.v
theories/P_Rmba.v
theories/P_Round.v
theories/P_Sat.v
theories/P_SatCase.v
theories/P_Script.v
theories/P_Seg.v
theories/P_Serial.v
theories/P_Status.v
theories/P_SyncFl.v
theories/P_Therm.v
theories/P_Thick.v
theories/P_Tide.v
theories/P_TideFl.v
theories/P_Toml.v
theories/P_Up.v
theories/P_Written.v
theories/T_Files.v
theories/T_Io.v
